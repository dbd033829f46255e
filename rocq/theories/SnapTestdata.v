(** Generated by tools/snapshot/emit.py from /repo/internal/testdata/snapshots/{input,output}/testdata: what packages.Load
    returns for that directory (syntax, types, modules; dependencies reduced to the declarations used), and the golden output. *)
From Coq Require Import Ascii String.
From stdpp Require Import prelude strings gmap.
From Verif Require Import GoStr Scip GoTypes Ast Packages Source Signature Snapshot Contract.
Open Scope string_scope.
Open Scope list_scope.
Definition k0 : tpkg := TPkg "io" [SEntry "Writer" true (TNamed (TName 47 (Some "io") "Writer") [])].
Definition o47 : obj := Obj 47 "Writer" (Some k0) 10000322 OTypeName (TNamed (TName 47 (Some "io") "Writer") []) None.
Definition o48 : obj := Obj 48 "Write" (Some k0) 10000341 (OFunc (Some (Some (TNamed (TName 47 (Some "io") "Writer") [])))) (TSig [(TSlice (TBasic BUint8 true))] [(TBasic BInt false); (TNamed (TName 21 None "error") [])] false) None.
Definition k1 : tpkg := TPkg "fmt" [SEntry "Fprint" false (TBasic BInvalid false); SEntry "Print" false (TBasic BInvalid false); SEntry "Printf" false (TBasic BInvalid false); SEntry "Println" false (TBasic BInvalid false); SEntry "Sprintf" false (TBasic BInvalid false); SEntry "Stringer" true (TNamed (TName 53 (Some "fmt") "Stringer") [])].
Definition o58 : obj := Obj 58 "Fprint" (Some k1) 10000256 (OFunc (Some None)) (TSig [(TNamed (TName 47 (Some "io") "Writer") []); (TSlice (TAlias (TName 20 None "any") (TInterface [] "")))] [(TBasic BInt false); (TNamed (TName 21 None "error") [])] true) None.
Definition o54 : obj := Obj 54 "Print" (Some k1) 10000073 (OFunc (Some None)) (TSig [(TSlice (TAlias (TName 20 None "any") (TInterface [] "")))] [(TBasic BInt false); (TNamed (TName 21 None "error") [])] true) None.
Definition o56 : obj := Obj 56 "Printf" (Some k1) 10000155 (OFunc (Some None)) (TSig [(TBasic BString false); (TSlice (TAlias (TName 20 None "any") (TInterface [] "")))] [(TBasic BInt false); (TNamed (TName 21 None "error") [])] true) None.
Definition o55 : obj := Obj 55 "Println" (Some k1) 10000113 (OFunc (Some None)) (TSig [(TSlice (TAlias (TName 20 None "any") (TInterface [] "")))] [(TBasic BInt false); (TNamed (TName 21 None "error") [])] true) None.
Definition o57 : obj := Obj 57 "Sprintf" (Some k1) 10000211 (OFunc (Some None)) (TSig [(TBasic BString false); (TSlice (TAlias (TName 20 None "any") (TInterface [] "")))] [(TBasic BString false)] true) None.
Definition o53 : obj := Obj 53 "Stringer" (Some k1) 10000029 OTypeName (TNamed (TName 53 (Some "fmt") "Stringer") []) None.
Definition o59 : obj := Obj 59 "String" (Some k1) 10000050 (OFunc (Some (Some (TNamed (TName 53 (Some "fmt") "Stringer") [])))) (TSig [] [(TBasic BString false)] false) None.
Definition k2 : tpkg := TPkg "context" [SEntry "Background" false (TBasic BInvalid false); SEntry "Context" true (TNamed (TName 81 (Some "context") "Context") [])].
Definition o82 : obj := Obj 82 "Background" (Some k2) 10000484 (OFunc (Some None)) (TSig [] [(TNamed (TName 81 (Some "context") "Context") [])] false) None.
Definition o81 : obj := Obj 81 "Context" (Some k2) 10000400 OTypeName (TNamed (TName 81 (Some "context") "Context") []) None.
Definition o83 : obj := Obj 83 "Done" (Some k2) 10000421 (OFunc (Some (Some (TNamed (TName 81 (Some "context") "Context") [])))) (TSig [] [(TChan 2 (TStruct []))] false) None.
Definition o85 : obj := Obj 85 "Err" (Some k2) 10000445 (OFunc (Some (Some (TNamed (TName 81 (Some "context") "Context") [])))) (TSig [] [(TNamed (TName 21 None "error") [])] false) None.
Definition o87 : obj := Obj 87 "Value" (Some k2) 10000458 (OFunc (Some (Some (TNamed (TName 81 (Some "context") "Context") [])))) (TSig [(TAlias (TName 20 None "any") (TInterface [] ""))] [(TAlias (TName 20 None "any") (TInterface [] ""))] false) None.
(* testdata/internal/secret/doc.go *)
Definition f4_0 : node := (NFile 8596 true "secret is a package that holds secrets.
" (Ident 1 "secret" 8604)
  []).
(* testdata/internal/secret/secret.go *)
Definition f4_1 : node := (NFile 8612 false "" (Ident 2 "secret" 8620)
  [(NGenDecl 8671 CONST "SecretScore is like score but _secret_.
" [(NValueSpec "" "" [(Ident 3 "SecretScore" 8677)] None [(NOther 8691 [(NIdent (Ident 4 "uint64" 8691))])])]);
   (NGenDecl 8719 TYPE "Original doc
" [(NTypeSpec "" (Ident 5 "Burger" 8724) (NFieldList []) (NStructType 6 8731 (NFieldList [(NField "" "" [(Ident 7 "Field" 8741)] (NIdent (Ident 8 "int" 8747)))])))])]).
Definition k3 : tpkg := TPkg "sg/testdata/internal/secret" [SEntry "Burger" true (TNamed (TName 93 (Some "sg/testdata/internal/secret") "Burger") []); SEntry "SecretScore" false (TBasic BInvalid false)].
Definition o92 : obj := Obj 92 "SecretScore" (Some k3) 8677 OConst (TBasic BUint64 false) None.
Definition o93 : obj := Obj 93 "Burger" (Some k3) 8724 OTypeName (TNamed (TName 93 (Some "sg/testdata/internal/secret") "Burger") []) None.
Definition o94 : obj := Obj 94 "Field" (Some k3) 8741 (OVar true) (TBasic BInt false) None.
Definition o11 : obj := Obj 11 "uint64" None 0 OTypeName (TBasic BUint64 false) None.
Definition o2 : obj := Obj 2 "int" None 0 OTypeName (TBasic BInt false) None.
Definition defs4 : list (nat * obj) := [(3, o92); (5, o93); (7, o94)].
Definition uses4 : list (nat * obj) := [(4, o11); (8, o2)].
Definition canon4 : list (nat * hty) := [(6, (HStruct [("Field", false, "", (HBasic "int"))]))].
Definition pkgnames4 : list (nat * obj) := [].
Definition cases4 : list obj := [].
Definition k4 : tpkg := TPkg "net/http" [SEntry "CanonicalHeaderKey" false (TBasic BInvalid false); SEntry "Client" true (TNamed (TName 116 (Some "net/http") "Client") []); SEntry "DefaultClient" false (TBasic BInvalid false); SEntry "Handler" true (TNamed (TName 115 (Some "net/http") "Handler") []); SEntry "Header" true (TNamed (TName 112 (Some "net/http") "Header") []); SEntry "Request" true (TNamed (TName 114 (Some "net/http") "Request") []); SEntry "ResponseWriter" true (TNamed (TName 113 (Some "net/http") "ResponseWriter") []); SEntry "StatusOK" false (TBasic BInvalid false)].
Definition o119 : obj := Obj 119 "CanonicalHeaderKey" (Some k4) 10000876 (OFunc (Some None)) (TSig [(TBasic BString false)] [(TBasic BString false)] false) None.
Definition o116 : obj := Obj 116 "Client" (Some k4) 10000794 OTypeName (TNamed (TName 116 (Some "net/http") "Client") []) None.
Definition o117 : obj := Obj 117 "DefaultClient" (Some k4) 10000824 (OVar false) (TPointer (TNamed (TName 116 (Some "net/http") "Client") [])) None.
Definition o115 : obj := Obj 115 "Handler" (Some k4) 10000731 OTypeName (TNamed (TName 115 (Some "net/http") "Handler") []) None.
Definition o112 : obj := Obj 112 "Header" (Some k4) 10000536 OTypeName (TNamed (TName 112 (Some "net/http") "Header") []) None.
Definition o114 : obj := Obj 114 "Request" (Some k4) 10000676 OTypeName (TNamed (TName 114 (Some "net/http") "Request") []) None.
Definition o113 : obj := Obj 113 "ResponseWriter" (Some k4) 10000568 OTypeName (TNamed (TName 113 (Some "net/http") "ResponseWriter") []) None.
Definition o118 : obj := Obj 118 "StatusOK" (Some k4) 10000856 OConst (TBasic BUntypedInt false) None.
Definition o130 : obj := Obj 130 "ServeHTTP" (Some k4) 10000751 (OFunc (Some (Some (TNamed (TName 115 (Some "net/http") "Handler") [])))) (TSig [(TNamed (TName 113 (Some "net/http") "ResponseWriter") []); (TPointer (TNamed (TName 114 (Some "net/http") "Request") []))] [] false) None.
Definition o120 : obj := Obj 120 "Header" (Some k4) 10000596 (OFunc (Some (Some (TNamed (TName 113 (Some "net/http") "ResponseWriter") [])))) (TSig [] [(TNamed (TName 112 (Some "net/http") "Header") [])] false) None.
Definition o122 : obj := Obj 122 "Write" (Some k4) 10000613 (OFunc (Some (Some (TNamed (TName 113 (Some "net/http") "ResponseWriter") [])))) (TSig [(TSlice (TBasic BUint8 true))] [(TBasic BInt false); (TNamed (TName 21 None "error") [])] false) None.
Definition o126 : obj := Obj 126 "WriteHeader" (Some k4) 10000641 (OFunc (Some (Some (TNamed (TName 113 (Some "net/http") "ResponseWriter") [])))) (TSig [(TBasic BInt false)] [] false) None.
Definition k5 : tpkg := TPkg "sync" [SEntry "WaitGroup" true (TNamed (TName 183 (Some "sync") "WaitGroup") [])].
Definition o183 : obj := Obj 183 "WaitGroup" (Some k5) 10000931 OTypeName (TNamed (TName 183 (Some "sync") "WaitGroup") []) None.
Definition o184 : obj := Obj 184 "Add" (Some k5) 10000979 (OFunc (Some (Some (TPointer (TNamed (TName 183 (Some "sync") "WaitGroup") []))))) (TSig [(TBasic BInt false)] [] false) None.
Definition o185 : obj := Obj 185 "Done" (Some k5) 10001015 (OFunc (Some (Some (TPointer (TNamed (TName 183 (Some "sync") "WaitGroup") []))))) (TSig [] [] false) None.
Definition o186 : obj := Obj 186 "Wait" (Some k5) 10001043 (OFunc (Some (Some (TPointer (TNamed (TName 183 (Some "sync") "WaitGroup") []))))) (TSig [] [] false) None.
(* testdata/anonymous_structs.go *)
Definition f7_0 : node := (NFile 1 false "" (Ident 9 "testdata" 9)
  [(NGenDecl 19 IMPORT "" [(NImportSpec 10 None 26 """fmt""")]);
   (NGenDecl 33 TYPE "" [(NTypeSpec "" (Ident 11 "TypeContainingAnonymousStructs" 38) (NFieldList []) (NStructType 12 69 (NFieldList [(NField "" "" [(Ident 13 "a" 79); (Ident 14 "b" 82)] (NStructType 15 84 (NFieldList [(NField "" "" [(Ident 16 "x" 95)] (NIdent (Ident 17 "int" 97))); (NField "" "" [(Ident 18 "y" 103)] (NIdent (Ident 19 "string" 105)))]))); (NField "" "" [(Ident 20 "c" 116)] (NStructType 21 118 (NFieldList [(NField "" "" [(Ident 22 "X" 129)] (NIdent (Ident 23 "int" 131))); (NField "" "" [(Ident 24 "Y" 137)] (NIdent (Ident 25 "string" 139)))])))])))]);
   (NFuncDecl "" 152 631 None (Ident 26 "funcContainingAnonymousStructs" 157) (NFuncType 152 (NFieldList []) (NFieldList []) (NFieldList [])) (Some (NBlockStmt 190 [(NOther 193 [(NIdent (Ident 27 "d" 193)); (NOther 198 [(NStructType 28 198 (NFieldList [(NField "" "" [(Ident 29 "x" 209)] (NIdent (Ident 30 "int" 211))); (NField "" "" [(Ident 31 "y" 217)] (NIdent (Ident 32 "string" 219)))])); (NOther 232 [(NIdent (Ident 33 "x" 232))]); (NOther 240 [(NIdent (Ident 34 "y" 240))])])]); (NOther 255 [(NGenDecl 255 VAR "" [(NValueSpec "" "" [(Ident 35 "e" 259)] (Some (NStructType 36 261 (NFieldList [(NField "" "" [(Ident 37 "x" 272)] (NIdent (Ident 38 "int" 274))); (NField "" "" [(Ident 39 "y" 280)] (NIdent (Ident 40 "string" 282)))]))) [])])]); (NOther 294 [(NSelectorExpr (NIdent (Ident 41 "e" 294)) (Ident 42 "x" 296))]); (NOther 303 [(NSelectorExpr (NIdent (Ident 43 "e" 303)) (Ident 44 "y" 305))]); (NOther 317 [(NGenDecl 317 VAR "" [(NValueSpec "" "" [(Ident 45 "f" 321)] (Some (NIdent (Ident 46 "TypeContainingAnonymousStructs" 323))) [])])]); (NOther 355 [(NSelectorExpr (NSelectorExpr (NIdent (Ident 47 "f" 355)) (Ident 48 "a" 357)) (Ident 49 "x" 359))]); (NOther 366 [(NSelectorExpr (NSelectorExpr (NIdent (Ident 50 "f" 366)) (Ident 51 "a" 368)) (Ident 52 "y" 370))]); (NOther 383 [(NSelectorExpr (NSelectorExpr (NIdent (Ident 53 "f" 383)) (Ident 54 "b" 385)) (Ident 55 "x" 387))]); (NOther 394 [(NSelectorExpr (NSelectorExpr (NIdent (Ident 56 "f" 394)) (Ident 57 "b" 396)) (Ident 58 "y" 398))]); (NOther 410 [(NSelectorExpr (NSelectorExpr (NIdent (Ident 59 "f" 410)) (Ident 60 "c" 412)) (Ident 61 "X" 414))]); (NOther 421 [(NSelectorExpr (NSelectorExpr (NIdent (Ident 62 "f" 421)) (Ident 63 "c" 423)) (Ident 64 "Y" 425))]); (NOther 438 [(NOther 438 [(NSelectorExpr (NIdent (Ident 65 "fmt" 438)) (Ident 66 "Printf" 442)); (NSelectorExpr (NIdent (Ident 67 "d" 463)) (Ident 68 "x" 465)); (NSelectorExpr (NIdent (Ident 69 "d" 468)) (Ident 70 "y" 470))])]); (NOther 474 [(NOther 474 [(NSelectorExpr (NIdent (Ident 71 "fmt" 474)) (Ident 72 "Printf" 478)); (NSelectorExpr (NIdent (Ident 73 "e" 499)) (Ident 74 "x" 501)); (NSelectorExpr (NIdent (Ident 75 "e" 504)) (Ident 76 "y" 506))])]); (NOther 511 [(NOther 511 [(NSelectorExpr (NIdent (Ident 77 "fmt" 511)) (Ident 78 "Printf" 515)); (NSelectorExpr (NSelectorExpr (NIdent (Ident 79 "f" 536)) (Ident 80 "a" 538)) (Ident 81 "x" 540)); (NSelectorExpr (NSelectorExpr (NIdent (Ident 82 "f" 543)) (Ident 83 "a" 545)) (Ident 84 "y" 547))])]); (NOther 551 [(NOther 551 [(NSelectorExpr (NIdent (Ident 85 "fmt" 551)) (Ident 86 "Printf" 555)); (NSelectorExpr (NSelectorExpr (NIdent (Ident 87 "f" 576)) (Ident 88 "b" 578)) (Ident 89 "x" 580)); (NSelectorExpr (NSelectorExpr (NIdent (Ident 90 "f" 583)) (Ident 91 "b" 585)) (Ident 92 "y" 587))])]); (NOther 591 [(NOther 591 [(NSelectorExpr (NIdent (Ident 93 "fmt" 591)) (Ident 94 "Printf" 595)); (NSelectorExpr (NSelectorExpr (NIdent (Ident 95 "f" 616)) (Ident 96 "c" 618)) (Ident 97 "X" 620)); (NSelectorExpr (NSelectorExpr (NIdent (Ident 98 "f" 623)) (Ident 99 "c" 625)) (Ident 100 "Y" 627))])])])))]).
(* testdata/data.go *)
Definition f7_1 : node := (NFile 633 false "" (Ident 101 "testdata" 641)
  [(NGenDecl 651 IMPORT "" [(NImportSpec 102 None 661 """context"""); (NImportSpec 103 None 673 """sg/testdata/internal/secret""")]);
   (NGenDecl 757 TYPE "TestInterface is an interface used for testing.
" [(NTypeSpec "" (Ident 104 "TestInterface" 762) (NFieldList []) (NInterfaceType 105 776 (NFieldList [(NField "Do does a test thing.
" "" [(Ident 106 "Do" 815)] (NFuncType 817 (NFieldList []) (NFieldList [(NField "" "" [(Ident 107 "ctx" 818)] (NSelectorExpr (NIdent (Ident 108 "context" 822)) (Ident 109 "Context" 830))); (NField "" "" [(Ident 110 "data" 839)] (NIdent (Ident 111 "string" 844)))]) (NFieldList [(NField "" "" [(Ident 112 "score" 853)] (NIdent (Ident 113 "int" 859))); (NField "" "" [(Ident 114 "_" 864)] (NIdent (Ident 115 "error" 866)))])))])))]);
   (NGenDecl 876 TYPE "" [(NTypeSpec "TestStruct is a struct used for testing.
" (Ident 116 "TestStruct" 929) (NFieldList []) (NStructType 117 940 (NFieldList [(NField "SimpleA docs
" "" [(Ident 118 "SimpleA" 969)] (NIdent (Ident 119 "int" 977))); (NField "SimpleB docs
" "" [(Ident 120 "SimpleB" 1001)] (NIdent (Ident 121 "int" 1009))); (NField "SimpleC docs
" "" [(Ident 122 "SimpleC" 1033)] (NIdent (Ident 123 "int" 1041))); (NField "" "" [(Ident 124 "FieldWithTag" 1048)] (NIdent (Ident 125 "string" 1071))); (NField "" "" [(Ident 126 "FieldWithAnonymousType" 1093)] (NStructType 127 1116 (NFieldList [(NField "" "" [(Ident 128 "NestedA" 1128)] (NIdent (Ident 129 "string" 1136))); (NField "" "" [(Ident 130 "NestedB" 1146)] (NIdent (Ident 131 "string" 1154))); (NField "NestedC docs
" "" [(Ident 132 "NestedC" 1183)] (NIdent (Ident 133 "string" 1191)))]))); (NField "" "" [(Ident 134 "EmptyStructField" 1205)] (NStructType 135 1222 (NFieldList [])))]))); (NTypeSpec "" (Ident 136 "TestEmptyStruct" 1236) (NFieldList []) (NStructType 137 1252 (NFieldList [])))]);
   (NGenDecl 1301 CONST "Score is just a hardcoded number.
" [(NValueSpec "" "" [(Ident 138 "Score" 1307)] None [(NOther 1315 [(NIdent (Ident 139 "uint64" 1315))])])]);
   (NGenDecl 1326 CONST "" [(NValueSpec "" "" [(Ident 140 "secretScore" 1332)] None [(NSelectorExpr (NIdent (Ident 141 "secret" 1346)) (Ident 142 "SecretScore" 1353))])]);
   (NGenDecl 1366 CONST "" [(NValueSpec "" "" [(Ident 143 "SomeString" 1372)] None [])]);
   (NGenDecl 1394 CONST "" [(NValueSpec "" "" [(Ident 144 "LongString" 1400)] None [])]);
   (NGenDecl 4614 CONST "" [(NValueSpec "" "" [(Ident 145 "ConstMath" 4620)] None [(NBinaryExpr (NOther 4632 []) (NBinaryExpr (NParenExpr 4636 (NBinaryExpr (NOther 4637 []) (NOther 4639 []))) (NOther 4642 [])))])]);
   (NGenDecl 4645 TYPE "" [(NTypeSpec "" (Ident 146 "StringAlias" 4650) (NFieldList []) (NIdent (Ident 147 "string" 4662)))]);
   (NGenDecl 4670 CONST "" [(NValueSpec "" "" [(Ident 148 "AliasedString" 4676)] (Some (NIdent (Ident 149 "StringAlias" 4690))) [])]);
   (NFuncDecl "Doer is similar to the test interface (but not the same).
" 4775 4881 (Some (NFieldList [(NField "" "" [(Ident 150 "ts" 4781)] (NStarExpr 4784 (NIdent (Ident 151 "TestStruct" 4785))))])) (Ident 152 "Doer" 4797) (NFuncType 4775 (NFieldList []) (NFieldList [(NField "" "" [(Ident 153 "ctx" 4802)] (NSelectorExpr (NIdent (Ident 154 "context" 4806)) (Ident 155 "Context" 4814))); (NField "" "" [(Ident 156 "data" 4823)] (NIdent (Ident 157 "string" 4828)))]) (NFieldList [(NField "" "" [(Ident 158 "score" 4837)] (NIdent (Ident 159 "int" 4843))); (NField "" "" [(Ident 160 "err" 4848)] (NIdent (Ident 161 "error" 4852)))])) (Some (NBlockStmt 4859 [(NOther 4862 [(NIdent (Ident 162 "Score" 4869)); (NIdent (Ident 163 "nil" 4876))])])));
   (NGenDecl 5125 TYPE "StructTagRegression is a struct that caused panic in the wild. Added here to
support a regression test.

See https://github.com/tal-tech/go-zero/blob/11dd3d75ecceaa3f5772024fb3f26dec1ada8e9c/core/mapping/unmarshaler_test.go#L2272.
" [(NTypeSpec "" (Ident 164 "StructTagRegression" 5130) (NFieldList []) (NStructType 165 5150 (NFieldList [(NField "" "" [(Ident 166 "Value" 5160)] (NIdent (Ident 167 "int" 5166)))])))]);
   (NGenDecl 5192 TYPE "" [(NTypeSpec "" (Ident 168 "TestEqualsStruct" 5197) (NFieldList []) (NStructType 169 5216 (NFieldList [(NField "" "" [(Ident 170 "Value" 5226)] (NIdent (Ident 171 "int" 5232)))])))]);
   (NGenDecl 5239 TYPE "" [(NTypeSpec "" (Ident 172 "ShellStruct" 5244) (NFieldList []) (NStructType 173 5256 (NFieldList [(NField "Ensure this field comes before the definition
so that we grab the correct one in our unit
tests.
" "" [] (NIdent (Ident 174 "InnerStruct" 5375)))])))]);
   (NGenDecl 5390 TYPE "" [(NTypeSpec "" (Ident 175 "InnerStruct" 5395) (NFieldList []) (NStructType 176 5407 (NFieldList [])))])]).
(* testdata/external_composite.go *)
Definition f7_2 : node := (NFile 5417 false "" (Ident 177 "testdata" 5425)
  [(NGenDecl 5435 IMPORT "" [(NImportSpec 178 None 5442 """net/http""")]);
   (NGenDecl 5454 TYPE "" [(NTypeSpec "" (Ident 179 "NestedHandler" 5459) (NFieldList []) (NStructType 180 5473 (NFieldList [(NField "" "" [] (NSelectorExpr (NIdent (Ident 181 "http" 5483)) (Ident 182 "Handler" 5488))); (NField "" "" [(Ident 183 "Other" 5497)] (NIdent (Ident 184 "int" 5503)))])))])]).
(* testdata/implementations.go *)
Definition f7_3 : node := (NFile 5510 false "" (Ident 185 "testdata" 5518)
  [(NGenDecl 5528 TYPE "" [(NTypeSpec "" (Ident 186 "I0" 5533) (NFieldList []) (NInterfaceType 187 5536 (NFieldList [])))]);
   (NGenDecl 5549 TYPE "" [(NTypeSpec "" (Ident 188 "I1" 5554) (NFieldList []) (NInterfaceType 189 5557 (NFieldList [(NField "" "" [(Ident 190 "F1" 5570)] (NFuncType 5572 (NFieldList []) (NFieldList []) (NFieldList [])))])))]);
   (NGenDecl 5578 TYPE "" [(NTypeSpec "" (Ident 191 "I2" 5583) (NFieldList []) (NInterfaceType 192 5586 (NFieldList [(NField "" "" [(Ident 193 "F2" 5599)] (NFuncType 5601 (NFieldList []) (NFieldList []) (NFieldList [])))])))]);
   (NGenDecl 5607 TYPE "" [(NTypeSpec "" (Ident 194 "T1" 5612) (NFieldList []) (NIdent (Ident 195 "int" 5615)))]);
   (NFuncDecl "" 5620 5639 (Some (NFieldList [(NField "" "" [(Ident 196 "r" 5626)] (NIdent (Ident 197 "T1" 5628)))])) (Ident 198 "F1" 5632) (NFuncType 5620 (NFieldList []) (NFieldList []) (NFieldList [])) (Some (NBlockStmt 5637 [])));
   (NGenDecl 5641 TYPE "" [(NTypeSpec "" (Ident 199 "T2" 5646) (NFieldList []) (NIdent (Ident 200 "int" 5649)))]);
   (NFuncDecl "" 5654 5673 (Some (NFieldList [(NField "" "" [(Ident 201 "r" 5660)] (NIdent (Ident 202 "T2" 5662)))])) (Ident 203 "F1" 5666) (NFuncType 5654 (NFieldList []) (NFieldList []) (NFieldList [])) (Some (NBlockStmt 5671 [])));
   (NFuncDecl "" 5674 5693 (Some (NFieldList [(NField "" "" [(Ident 204 "r" 5680)] (NIdent (Ident 205 "T2" 5682)))])) (Ident 206 "F2" 5686) (NFuncType 5674 (NFieldList []) (NFieldList []) (NFieldList [])) (Some (NBlockStmt 5691 [])));
   (NGenDecl 5695 TYPE "" [(NTypeSpec "" (Ident 207 "A1" 5700) (NFieldList []) (NIdent (Ident 208 "T1" 5705)))]);
   (NGenDecl 5708 TYPE "" [(NTypeSpec "" (Ident 209 "A12" 5713) (NFieldList []) (NIdent (Ident 210 "A1" 5719)))]);
   (NGenDecl 5723 TYPE "" [(NTypeSpec "" (Ident 211 "InterfaceWithNonExportedMethod" 5728) (NFieldList []) (NInterfaceType 212 5759 (NFieldList [(NField "" "" [(Ident 213 "nonExportedMethod" 5772)] (NFuncType 5789 (NFieldList []) (NFieldList []) (NFieldList [])))])))]);
   (NGenDecl 5795 TYPE "" [(NTypeSpec "" (Ident 214 "InterfaceWithExportedMethod" 5800) (NFieldList []) (NInterfaceType 215 5828 (NFieldList [(NField "" "" [(Ident 216 "ExportedMethod" 5841)] (NFuncType 5855 (NFieldList []) (NFieldList []) (NFieldList [])))])))]);
   (NGenDecl 5861 TYPE "" [(NTypeSpec "" (Ident 217 "Foo" 5866) (NFieldList []) (NIdent (Ident 218 "int" 5870)))]);
   (NFuncDecl "" 5875 5910 (Some (NFieldList [(NField "" "" [(Ident 219 "r" 5881)] (NIdent (Ident 220 "Foo" 5883)))])) (Ident 221 "nonExportedMethod" 5888) (NFuncType 5875 (NFieldList []) (NFieldList []) (NFieldList [])) (Some (NBlockStmt 5908 [])));
   (NFuncDecl "" 5911 5946 (Some (NFieldList [(NField "" "" [(Ident 222 "r" 5917)] (NIdent (Ident 223 "Foo" 5919)))])) (Ident 224 "ExportedMethod" 5924) (NFuncType 5911 (NFieldList []) (NFieldList []) (NFieldList [])) (Some (NBlockStmt 5944 [])));
   (NFuncDecl "" 5947 5982 (Some (NFieldList [(NField "" "" [(Ident 225 "r" 5953)] (NIdent (Ident 226 "Foo" 5955)))])) (Ident 227 "ScipTestMethod" 5960) (NFuncType 5947 (NFieldList []) (NFieldList []) (NFieldList [])) (Some (NBlockStmt 5980 [])));
   (NGenDecl 5984 TYPE "" [(NTypeSpec "" (Ident 228 "SharedOne" 5989) (NFieldList []) (NInterfaceType 229 5999 (NFieldList [(NField "" "" [(Ident 230 "Shared" 6012)] (NFuncType 6018 (NFieldList []) (NFieldList []) (NFieldList []))); (NField "" "" [(Ident 231 "Distinct" 6022)] (NFuncType 6030 (NFieldList []) (NFieldList []) (NFieldList [])))])))]);
   (NGenDecl 6036 TYPE "" [(NTypeSpec "" (Ident 232 "SharedTwo" 6041) (NFieldList []) (NInterfaceType 233 6051 (NFieldList [(NField "" "" [(Ident 234 "Shared" 6064)] (NFuncType 6070 (NFieldList []) (NFieldList []) (NFieldList []))); (NField "" "" [(Ident 235 "Unique" 6074)] (NFuncType 6080 (NFieldList []) (NFieldList []) (NFieldList [])))])))]);
   (NGenDecl 6086 TYPE "" [(NTypeSpec "" (Ident 236 "Between" 6091) (NFieldList []) (NStructType 237 6099 (NFieldList [])))]);
   (NFuncDecl "" 6109 6137 (Some (NFieldList [(NField "" "" [] (NIdent (Ident 238 "Between" 6115)))])) (Ident 239 "Shared" 6124) (NFuncType 6109 (NFieldList []) (NFieldList []) (NFieldList [])) (Some (NBlockStmt 6135 [])));
   (NFuncDecl "" 6138 6166 (Some (NFieldList [(NField "" "" [] (NIdent (Ident 240 "Between" 6144)))])) (Ident 241 "Distinct" 6153) (NFuncType 6138 (NFieldList []) (NFieldList []) (NFieldList [])) (Some (NBlockStmt 6164 [])));
   (NFuncDecl "" 6167 6195 (Some (NFieldList [(NField "" "" [] (NIdent (Ident 242 "Between" 6173)))])) (Ident 243 "Unique" 6182) (NFuncType 6167 (NFieldList []) (NFieldList []) (NFieldList [])) (Some (NBlockStmt 6193 [])));
   (NFuncDecl "" 6197 6251 None (Ident 244 "shouldShow" 6202) (NFuncType 6197 (NFieldList []) (NFieldList [(NField "" "" [(Ident 245 "shared" 6213)] (NIdent (Ident 246 "SharedOne" 6220)))]) (NFieldList [])) (Some (NBlockStmt 6231 [(NOther 6234 [(NOther 6234 [(NSelectorExpr (NIdent (Ident 247 "shared" 6234)) (Ident 248 "Shared" 6241))])])])))]).
(* testdata/implementations_embedded.go *)
Definition f7_4 : node := (NFile 6253 false "" (Ident 249 "testdata" 6261)
  [(NGenDecl 6271 TYPE "" [(NTypeSpec "" (Ident 250 "I3" 6276) (NFieldList []) (NInterfaceType 251 6279 (NFieldList [(NField "" "" [(Ident 252 "ScipTestMethod" 6292)] (NFuncType 6306 (NFieldList []) (NFieldList []) (NFieldList [])))])))]);
   (NGenDecl 6312 TYPE "" [(NTypeSpec "" (Ident 253 "EmbeddedI3" 6317) (NFieldList []) (NInterfaceType 254 6328 (NFieldList [(NField "" "" [(Ident 255 "ScipTestMethod" 6341)] (NFuncType 6355 (NFieldList []) (NFieldList []) (NFieldList [])))])))]);
   (NGenDecl 6361 TYPE "" [(NTypeSpec "" (Ident 256 "TClose" 6366) (NFieldList []) (NStructType 257 6373 (NFieldList [(NField "" "" [] (NIdent (Ident 258 "EmbeddedI3" 6383)))])))])]).
(* testdata/implementations_methods.go *)
Definition f7_5 : node := (NFile 6397 false "" (Ident 259 "testdata" 6405)
  [(NGenDecl 6415 TYPE "" [(NTypeSpec "" (Ident 260 "InterfaceWithSingleMethod" 6420) (NFieldList []) (NInterfaceType 261 6446 (NFieldList [(NField "" "" [(Ident 262 "SingleMethod" 6459)] (NFuncType 6471 (NFieldList []) (NFieldList []) (NFieldList [(NField "" "" [] (NIdent (Ident 263 "float64" 6474)))])))])))]);
   (NGenDecl 6485 TYPE "" [(NTypeSpec "" (Ident 264 "StructWithMethods" 6490) (NFieldList []) (NStructType 265 6508 (NFieldList [])))]);
   (NFuncDecl "" 6518 6580 (Some (NFieldList [(NField "" "" [] (NIdent (Ident 266 "StructWithMethods" 6524)))])) (Ident 267 "SingleMethod" 6543) (NFuncType 6518 (NFieldList []) (NFieldList []) (NFieldList [(NField "" "" [] (NIdent (Ident 268 "float64" 6558)))])) (Some (NBlockStmt 6566 [(NOther 6568 [])])));
   (NGenDecl 6582 TYPE "" [(NTypeSpec "" (Ident 269 "InterfaceWithSingleMethodTwoImplementers" 6587) (NFieldList []) (NInterfaceType 270 6628 (NFieldList [(NField "" "" [(Ident 271 "SingleMethodTwoImpl" 6641)] (NFuncType 6660 (NFieldList []) (NFieldList []) (NFieldList [(NField "" "" [] (NIdent (Ident 272 "float64" 6663)))])))])))]);
   (NGenDecl 6674 TYPE "" [(NTypeSpec "" (Ident 273 "TwoImplOne" 6679) (NFieldList []) (NStructType 274 6690 (NFieldList [])))]);
   (NFuncDecl "" 6700 6762 (Some (NFieldList [(NField "" "" [] (NIdent (Ident 275 "TwoImplOne" 6706)))])) (Ident 276 "SingleMethodTwoImpl" 6718) (NFuncType 6700 (NFieldList []) (NFieldList []) (NFieldList [(NField "" "" [] (NIdent (Ident 277 "float64" 6740)))])) (Some (NBlockStmt 6748 [(NOther 6750 [])])));
   (NGenDecl 6764 TYPE "" [(NTypeSpec "" (Ident 278 "TwoImplTwo" 6769) (NFieldList []) (NStructType 279 6780 (NFieldList [])))]);
   (NFuncDecl "" 6790 6860 (Some (NFieldList [(NField "" "" [] (NIdent (Ident 280 "TwoImplTwo" 6796)))])) (Ident 281 "SingleMethodTwoImpl" 6808) (NFuncType 6790 (NFieldList []) (NFieldList []) (NFieldList [(NField "" "" [] (NIdent (Ident 282 "float64" 6830)))])) (Some (NBlockStmt 6846 [(NOther 6848 [])])));
   (NFuncDecl "" 6861 6931 (Some (NFieldList [(NField "" "" [] (NIdent (Ident 283 "TwoImplTwo" 6867)))])) (Ident 284 "RandomThingThatDoesntMatter" 6879) (NFuncType 6861 (NFieldList []) (NFieldList []) (NFieldList [(NField "" "" [] (NIdent (Ident 285 "float64" 6909)))])) (Some (NBlockStmt 6917 [(NOther 6919 [])])))]).
(* testdata/implementations_remote.go *)
Definition f7_6 : node := (NFile 6933 false "" (Ident 286 "testdata" 6941)
  [(NGenDecl 6951 IMPORT "" [(NImportSpec 287 None 6958 """net/http""")]);
   (NGenDecl 6970 TYPE "" [(NTypeSpec "" (Ident 288 "implementsWriter" 6975) (NFieldList []) (NStructType 289 6992 (NFieldList [])))]);
   (NFuncDecl "" 7002 7079 (Some (NFieldList [(NField "" "" [] (NIdent (Ident 290 "implementsWriter" 7008)))])) (Ident 291 "Header" 7026) (NFuncType 7002 (NFieldList []) (NFieldList []) (NFieldList [(NField "" "" [] (NSelectorExpr (NIdent (Ident 292 "http" 7035)) (Ident 293 "Header" 7040)))])) (Some (NBlockStmt 7054 [(NOther 7056 [(NOther 7056 [(NIdent (Ident 294 "panic" 7056))])])])));
   (NFuncDecl "" 7080 7158 (Some (NFieldList [(NField "" "" [] (NIdent (Ident 295 "implementsWriter" 7086)))])) (Ident 296 "Write" 7104) (NFuncType 7080 (NFieldList []) (NFieldList [(NField "" "" [] (NArrayType 7110 None (NIdent (Ident 297 "byte" 7112))))]) (NFieldList [(NField "" "" [] (NIdent (Ident 298 "int" 7119))); (NField "" "" [] (NIdent (Ident 299 "error" 7124)))])) (Some (NBlockStmt 7132 [(NOther 7134 [(NOther 7134 [(NIdent (Ident 300 "panic" 7134))])])])));
   (NFuncDecl "" 7159 7213 (Some (NFieldList [(NField "" "" [] (NIdent (Ident 301 "implementsWriter" 7165)))])) (Ident 302 "WriteHeader" 7183) (NFuncType 7159 (NFieldList []) (NFieldList [(NField "" "" [(Ident 303 "statusCode" 7195)] (NIdent (Ident 304 "int" 7206)))]) (NFieldList [])) (Some (NBlockStmt 7211 [])));
   (NFuncDecl "" 7215 7299 None (Ident 305 "ShowsInSignature" 7220) (NFuncType 7215 (NFieldList []) (NFieldList [(NField "" "" [(Ident 306 "respWriter" 7237)] (NSelectorExpr (NIdent (Ident 307 "http" 7248)) (Ident 308 "ResponseWriter" 7253)))]) (NFieldList [])) (Some (NBlockStmt 7269 [(NOther 7272 [(NOther 7272 [(NSelectorExpr (NIdent (Ident 309 "respWriter" 7272)) (Ident 310 "WriteHeader" 7283))])])])))]).
(* testdata/named_import.go *)
Definition f7_7 : node := (NFile 7301 false "" (Ident 311 "testdata" 7309)
  [(NGenDecl 7319 IMPORT "" [(NImportSpec 312 (Some (Ident 313 "." 7329)) 7331 """fmt"""); (NImportSpec 314 (Some (Ident 315 "h" 7338)) 7340 """net/http""")]);
   (NFuncDecl "" 7354 7422 None (Ident 316 "Example" 7359) (NFuncType 7354 (NFieldList []) (NFieldList []) (NFieldList [])) (Some (NBlockStmt 7369 [(NOther 7372 [(NOther 7372 [(NIdent (Ident 317 "Println" 7372)); (NOther 7380 [(NSelectorExpr (NIdent (Ident 318 "h" 7380)) (Ident 319 "CanonicalHeaderKey" 7382))])])])])))]).
(* testdata/parallel.go *)
Definition f7_8 : node := (NFile 7424 false "" (Ident 320 "testdata" 7432)
  [(NGenDecl 7442 IMPORT "" [(NImportSpec 321 None 7452 """context"""); (NImportSpec 322 None 7463 """sync""")]);
   (NGenDecl 7588 TYPE "ParallelizableFunc is a function that can be called concurrently with other instances
of this function type.
" [(NTypeSpec "" (Ident 323 "ParallelizableFunc" 7593) (NFieldList []) (NFuncType 7612 (NFieldList []) (NFieldList [(NField "" "" [(Ident 324 "ctx" 7617)] (NSelectorExpr (NIdent (Ident 325 "context" 7621)) (Ident 326 "Context" 7629)))]) (NFieldList [(NField "" "" [] (NIdent (Ident 327 "error" 7638)))])))]);
   (NFuncDecl "Parallel invokes each of the given parallelizable functions in their own goroutines and
returns the first error to occur. This method will block until all goroutines have returned.
" 7832 8170 None (Ident 328 "Parallel" 7837) (NFuncType 7832 (NFieldList []) (NFieldList [(NField "" "" [(Ident 329 "ctx" 7846)] (NSelectorExpr (NIdent (Ident 330 "context" 7850)) (Ident 331 "Context" 7858))); (NField "" "" [(Ident 332 "fns" 7867)] (NOther 7871 [(NIdent (Ident 333 "ParallelizableFunc" 7874))]))]) (NFieldList [(NField "" "" [] (NIdent (Ident 334 "error" 7894)))])) (Some (NBlockStmt 7900 [(NOther 7903 [(NGenDecl 7903 VAR "" [(NValueSpec "" "" [(Ident 335 "wg" 7907)] (Some (NSelectorExpr (NIdent (Ident 336 "sync" 7910)) (Ident 337 "WaitGroup" 7915))) [])])]); (NOther 7926 [(NIdent (Ident 338 "errs" 7926)); (NOther 7934 [(NIdent (Ident 339 "make" 7934)); (NChanType 7939 (NIdent (Ident 340 "error" 7944))); (NOther 7951 [(NIdent (Ident 341 "len" 7951)); (NIdent (Ident 342 "fns" 7955))])])]); (NOther 7963 [(NIdent (Ident 343 "_" 7967)); (NIdent (Ident 344 "fn" 7970)); (NIdent (Ident 345 "fns" 7982)); (NBlockStmt 7986 [(NOther 7990 [(NOther 7990 [(NSelectorExpr (NIdent (Ident 346 "wg" 7990)) (Ident 347 "Add" 7993))])]); (NOther 8003 [(NOther 8006 [(NFuncLit (NFuncType 8006 (NFieldList []) (NFieldList [(NField "" "" [(Ident 348 "fn" 8011)] (NIdent (Ident 349 "ParallelizableFunc" 8014)))]) (NFieldList [])) (NBlockStmt 8034 [(NOther 8039 [(NIdent (Ident 350 "errs" 8039)); (NOther 8047 [(NIdent (Ident 351 "fn" 8047)); (NIdent (Ident 352 "ctx" 8050))])]); (NOther 8058 [(NOther 8058 [(NSelectorExpr (NIdent (Ident 353 "wg" 8058)) (Ident 354 "Done" 8061))])])])); (NIdent (Ident 355 "fn" 8072))])])])]); (NOther 8081 [(NOther 8081 [(NSelectorExpr (NIdent (Ident 356 "wg" 8081)) (Ident 357 "Wait" 8084))])]); (NOther 8093 [(NIdent (Ident 358 "err" 8097)); (NIdent (Ident 359 "errs" 8110)); (NBlockStmt 8115 [(NOther 8119 [(NBinaryExpr (NIdent (Ident 360 "err" 8122)) (NIdent (Ident 361 "nil" 8129))); (NBlockStmt 8133 [(NOther 8138 [(NIdent (Ident 362 "err" 8145))])])])])]); (NOther 8158 [(NIdent (Ident 363 "nil" 8165))])])))]).
(* testdata/typealias.go *)
Definition f7_9 : node := (NFile 8172 false "" (Ident 364 "testdata" 8180)
  [(NGenDecl 8190 IMPORT "" [(NImportSpec 365 None 8200 """sg/testdata/internal/secret""")]);
   (NGenDecl 8253 TYPE "Type aliased doc
" [(NTypeSpec "" (Ident 366 "SecretBurger" 8258) (NFieldList []) (NSelectorExpr (NIdent (Ident 367 "secret" 8273)) (Ident 368 "Burger" 8280)))]);
   (NGenDecl 8288 TYPE "" [(NTypeSpec "" (Ident 369 "BadBurger" 8293) (NFieldList []) (NStructType 370 8305 (NFieldList [(NField "" "" [(Ident 371 "Field" 8315)] (NIdent (Ident 372 "string" 8321)))])))])]).
(* testdata/typeswitch.go *)
Definition f7_10 : node := (NFile 8331 false "" (Ident 373 "testdata" 8339)
  [(NFuncDecl "" 8349 8551 None (Ident 374 "Switch" 8354) (NFuncType 8349 (NFieldList []) (NFieldList [(NField "" "" [(Ident 375 "interfaceValue" 8361)] (NInterfaceType 376 8376 (NFieldList [])))]) (NFieldList [(NField "" "" [] (NIdent (Ident 377 "bool" 8389)))])) (Some (NBlockStmt 8394 [(NOther 8397 [(NOther 8404 [(NIdent (Ident 378 "concreteValue" 8404)); (NOther 8421 [(NIdent (Ident 379 "interfaceValue" 8421))])]); (NBlockStmt 8443 [(NOther 8446 [(NIdent (Ident 380 "int" 8451)); (NOther 8458 [(NBinaryExpr (NBinaryExpr (NIdent (Ident 381 "concreteValue" 8465)) (NOther 8479 [])) (NOther 8483 []))])]); (NOther 8487 [(NIdent (Ident 382 "bool" 8492)); (NOther 8500 [(NUnaryExpr 8507 (NIdent (Ident 383 "concreteValue" 8508)))])]); (NOther 8523 [(NOther 8534 [(NIdent (Ident 384 "false" 8541))])])])])])))]).
Definition k6 : tpkg := TPkg "sg/testdata" [SEntry "A1" true (TAlias (TName 146 (Some "sg/testdata") "A1") (TNamed (TName 141 (Some "sg/testdata") "T1") [])); SEntry "A12" true (TAlias (TName 147 (Some "sg/testdata") "A12") (TAlias (TName 146 (Some "sg/testdata") "A1") (TNamed (TName 141 (Some "sg/testdata") "T1") []))); SEntry "AliasedString" false (TBasic BInvalid false); SEntry "BadBurger" true (TAlias (TName 197 (Some "sg/testdata") "BadBurger") (TStruct [(FHdr 267 "Field" (Some "sg/testdata") false "", (TBasic BString false))])); SEntry "Between" true (TNamed (TName 156 (Some "sg/testdata") "Between") []); SEntry "ConstMath" false (TBasic BInvalid false); SEntry "EmbeddedI3" true (TNamed (TName 162 (Some "sg/testdata") "EmbeddedI3") []); SEntry "Example" false (TBasic BInvalid false); SEntry "Foo" true (TNamed (TName 150 (Some "sg/testdata") "Foo") []); SEntry "I0" true (TNamed (TName 138 (Some "sg/testdata") "I0") []); SEntry "I1" true (TNamed (TName 139 (Some "sg/testdata") "I1") []); SEntry "I2" true (TNamed (TName 140 (Some "sg/testdata") "I2") []); SEntry "I3" true (TNamed (TName 161 (Some "sg/testdata") "I3") []); SEntry "InnerStruct" true (TNamed (TName 110 (Some "sg/testdata") "InnerStruct") []); SEntry "InterfaceWithExportedMethod" true (TNamed (TName 149 (Some "sg/testdata") "InterfaceWithExportedMethod") []); SEntry "InterfaceWithNonExportedMethod" true (TNamed (TName 148 (Some "sg/testdata") "InterfaceWithNonExportedMethod") []); SEntry "InterfaceWithSingleMethod" true (TNamed (TName 164 (Some "sg/testdata") "InterfaceWithSingleMethod") []); SEntry "InterfaceWithSingleMethodTwoImplementers" true (TNamed (TName 167 (Some "sg/testdata") "InterfaceWithSingleMethodTwoImplementers") []); SEntry "LongString" false (TBasic BInvalid false); SEntry "NestedHandler" true (TNamed (TName 137 (Some "sg/testdata") "NestedHandler") []); SEntry "Parallel" false (TBasic BInvalid false); SEntry "ParallelizableFunc" true (TNamed (TName 193 (Some "sg/testdata") "ParallelizableFunc") []); SEntry "Score" false (TBasic BInvalid false); SEntry "SecretBurger" true (TAlias (TName 196 (Some "sg/testdata") "SecretBurger") (TNamed (TName 93 (Some "sg/testdata/internal/secret") "Burger") [])); SEntry "SharedOne" true (TNamed (TName 154 (Some "sg/testdata") "SharedOne") []); SEntry "SharedTwo" true (TNamed (TName 155 (Some "sg/testdata") "SharedTwo") []); SEntry "ShellStruct" true (TNamed (TName 109 (Some "sg/testdata") "ShellStruct") []); SEntry "ShowsInSignature" false (TBasic BInvalid false); SEntry "SomeString" false (TBasic BInvalid false); SEntry "StringAlias" true (TNamed (TName 104 (Some "sg/testdata") "StringAlias") []); SEntry "StructTagRegression" true (TNamed (TName 107 (Some "sg/testdata") "StructTagRegression") []); SEntry "StructWithMethods" true (TNamed (TName 165 (Some "sg/testdata") "StructWithMethods") []); SEntry "Switch" false (TBasic BInvalid false); SEntry "T1" true (TNamed (TName 141 (Some "sg/testdata") "T1") []); SEntry "T2" true (TNamed (TName 143 (Some "sg/testdata") "T2") []); SEntry "TClose" true (TNamed (TName 163 (Some "sg/testdata") "TClose") []); SEntry "TestEmptyStruct" true (TNamed (TName 98 (Some "sg/testdata") "TestEmptyStruct") []); SEntry "TestEqualsStruct" true (TAlias (TName 108 (Some "sg/testdata") "TestEqualsStruct") (TStruct [(FHdr 226 "Value" (Some "sg/testdata") false "", (TBasic BInt false))])); SEntry "TestInterface" true (TNamed (TName 96 (Some "sg/testdata") "TestInterface") []); SEntry "TestStruct" true (TNamed (TName 97 (Some "sg/testdata") "TestStruct") []); SEntry "TwoImplOne" true (TNamed (TName 168 (Some "sg/testdata") "TwoImplOne") []); SEntry "TwoImplTwo" true (TNamed (TName 170 (Some "sg/testdata") "TwoImplTwo") []); SEntry "TypeContainingAnonymousStructs" true (TNamed (TName 79 (Some "sg/testdata") "TypeContainingAnonymousStructs") []); SEntry "funcContainingAnonymousStructs" false (TBasic BInvalid false); SEntry "implementsWriter" true (TNamed (TName 174 (Some "sg/testdata") "implementsWriter") []); SEntry "secretScore" false (TBasic BInvalid false); SEntry "shouldShow" false (TBasic BInvalid false)].
Definition o79 : obj := Obj 79 "TypeContainingAnonymousStructs" (Some k6) 38 OTypeName (TNamed (TName 79 (Some "sg/testdata") "TypeContainingAnonymousStructs") []) None.
Definition o80 : obj := Obj 80 "funcContainingAnonymousStructs" (Some k6) 157 (OFunc (Some None)) (TSig [] [] false) None.
Definition o96 : obj := Obj 96 "TestInterface" (Some k6) 762 OTypeName (TNamed (TName 96 (Some "sg/testdata") "TestInterface") []) None.
Definition o97 : obj := Obj 97 "TestStruct" (Some k6) 929 OTypeName (TNamed (TName 97 (Some "sg/testdata") "TestStruct") []) None.
Definition o98 : obj := Obj 98 "TestEmptyStruct" (Some k6) 1236 OTypeName (TNamed (TName 98 (Some "sg/testdata") "TestEmptyStruct") []) None.
Definition o99 : obj := Obj 99 "Score" (Some k6) 1307 OConst (TBasic BUint64 false) None.
Definition o100 : obj := Obj 100 "secretScore" (Some k6) 1332 OConst (TBasic BUint64 false) None.
Definition o101 : obj := Obj 101 "SomeString" (Some k6) 1372 OConst (TBasic BUntypedString false) None.
Definition o102 : obj := Obj 102 "LongString" (Some k6) 1400 OConst (TBasic BUntypedString false) None.
Definition o103 : obj := Obj 103 "ConstMath" (Some k6) 4620 OConst (TBasic BUntypedInt false) None.
Definition o104 : obj := Obj 104 "StringAlias" (Some k6) 4650 OTypeName (TNamed (TName 104 (Some "sg/testdata") "StringAlias") []) None.
Definition o105 : obj := Obj 105 "AliasedString" (Some k6) 4676 OConst (TNamed (TName 104 (Some "sg/testdata") "StringAlias") []) None.
Definition o106 : obj := Obj 106 "Doer" (Some k6) 4797 (OFunc (Some (Some (TPointer (TNamed (TName 97 (Some "sg/testdata") "TestStruct") []))))) (TSig [(TNamed (TName 81 (Some "context") "Context") []); (TBasic BString false)] [(TBasic BInt false); (TNamed (TName 21 None "error") [])] false) None.
Definition o107 : obj := Obj 107 "StructTagRegression" (Some k6) 5130 OTypeName (TNamed (TName 107 (Some "sg/testdata") "StructTagRegression") []) None.
Definition o108 : obj := Obj 108 "TestEqualsStruct" (Some k6) 5197 OTypeName (TAlias (TName 108 (Some "sg/testdata") "TestEqualsStruct") (TStruct [(FHdr 226 "Value" (Some "sg/testdata") false "", (TBasic BInt false))])) None.
Definition o109 : obj := Obj 109 "ShellStruct" (Some k6) 5244 OTypeName (TNamed (TName 109 (Some "sg/testdata") "ShellStruct") []) None.
Definition o110 : obj := Obj 110 "InnerStruct" (Some k6) 5395 OTypeName (TNamed (TName 110 (Some "sg/testdata") "InnerStruct") []) None.
Definition o137 : obj := Obj 137 "NestedHandler" (Some k6) 5459 OTypeName (TNamed (TName 137 (Some "sg/testdata") "NestedHandler") []) None.
Definition o138 : obj := Obj 138 "I0" (Some k6) 5533 OTypeName (TNamed (TName 138 (Some "sg/testdata") "I0") []) None.
Definition o139 : obj := Obj 139 "I1" (Some k6) 5554 OTypeName (TNamed (TName 139 (Some "sg/testdata") "I1") []) None.
Definition o140 : obj := Obj 140 "I2" (Some k6) 5583 OTypeName (TNamed (TName 140 (Some "sg/testdata") "I2") []) None.
Definition o141 : obj := Obj 141 "T1" (Some k6) 5612 OTypeName (TNamed (TName 141 (Some "sg/testdata") "T1") []) None.
Definition o142 : obj := Obj 142 "F1" (Some k6) 5632 (OFunc (Some (Some (TNamed (TName 141 (Some "sg/testdata") "T1") [])))) (TSig [] [] false) None.
Definition o143 : obj := Obj 143 "T2" (Some k6) 5646 OTypeName (TNamed (TName 143 (Some "sg/testdata") "T2") []) None.
Definition o144 : obj := Obj 144 "F1" (Some k6) 5666 (OFunc (Some (Some (TNamed (TName 143 (Some "sg/testdata") "T2") [])))) (TSig [] [] false) None.
Definition o145 : obj := Obj 145 "F2" (Some k6) 5686 (OFunc (Some (Some (TNamed (TName 143 (Some "sg/testdata") "T2") [])))) (TSig [] [] false) None.
Definition o146 : obj := Obj 146 "A1" (Some k6) 5700 OTypeName (TAlias (TName 146 (Some "sg/testdata") "A1") (TNamed (TName 141 (Some "sg/testdata") "T1") [])) None.
Definition o147 : obj := Obj 147 "A12" (Some k6) 5713 OTypeName (TAlias (TName 147 (Some "sg/testdata") "A12") (TAlias (TName 146 (Some "sg/testdata") "A1") (TNamed (TName 141 (Some "sg/testdata") "T1") []))) None.
Definition o148 : obj := Obj 148 "InterfaceWithNonExportedMethod" (Some k6) 5728 OTypeName (TNamed (TName 148 (Some "sg/testdata") "InterfaceWithNonExportedMethod") []) None.
Definition o149 : obj := Obj 149 "InterfaceWithExportedMethod" (Some k6) 5800 OTypeName (TNamed (TName 149 (Some "sg/testdata") "InterfaceWithExportedMethod") []) None.
Definition o150 : obj := Obj 150 "Foo" (Some k6) 5866 OTypeName (TNamed (TName 150 (Some "sg/testdata") "Foo") []) None.
Definition o151 : obj := Obj 151 "nonExportedMethod" (Some k6) 5888 (OFunc (Some (Some (TNamed (TName 150 (Some "sg/testdata") "Foo") [])))) (TSig [] [] false) None.
Definition o152 : obj := Obj 152 "ExportedMethod" (Some k6) 5924 (OFunc (Some (Some (TNamed (TName 150 (Some "sg/testdata") "Foo") [])))) (TSig [] [] false) None.
Definition o153 : obj := Obj 153 "ScipTestMethod" (Some k6) 5960 (OFunc (Some (Some (TNamed (TName 150 (Some "sg/testdata") "Foo") [])))) (TSig [] [] false) None.
Definition o154 : obj := Obj 154 "SharedOne" (Some k6) 5989 OTypeName (TNamed (TName 154 (Some "sg/testdata") "SharedOne") []) None.
Definition o155 : obj := Obj 155 "SharedTwo" (Some k6) 6041 OTypeName (TNamed (TName 155 (Some "sg/testdata") "SharedTwo") []) None.
Definition o156 : obj := Obj 156 "Between" (Some k6) 6091 OTypeName (TNamed (TName 156 (Some "sg/testdata") "Between") []) None.
Definition o157 : obj := Obj 157 "Shared" (Some k6) 6124 (OFunc (Some (Some (TNamed (TName 156 (Some "sg/testdata") "Between") [])))) (TSig [] [] false) None.
Definition o158 : obj := Obj 158 "Distinct" (Some k6) 6153 (OFunc (Some (Some (TNamed (TName 156 (Some "sg/testdata") "Between") [])))) (TSig [] [] false) None.
Definition o159 : obj := Obj 159 "Unique" (Some k6) 6182 (OFunc (Some (Some (TNamed (TName 156 (Some "sg/testdata") "Between") [])))) (TSig [] [] false) None.
Definition o160 : obj := Obj 160 "shouldShow" (Some k6) 6202 (OFunc (Some None)) (TSig [(TNamed (TName 154 (Some "sg/testdata") "SharedOne") [])] [] false) None.
Definition o161 : obj := Obj 161 "I3" (Some k6) 6276 OTypeName (TNamed (TName 161 (Some "sg/testdata") "I3") []) None.
Definition o162 : obj := Obj 162 "EmbeddedI3" (Some k6) 6317 OTypeName (TNamed (TName 162 (Some "sg/testdata") "EmbeddedI3") []) None.
Definition o163 : obj := Obj 163 "TClose" (Some k6) 6366 OTypeName (TNamed (TName 163 (Some "sg/testdata") "TClose") []) None.
Definition o164 : obj := Obj 164 "InterfaceWithSingleMethod" (Some k6) 6420 OTypeName (TNamed (TName 164 (Some "sg/testdata") "InterfaceWithSingleMethod") []) None.
Definition o165 : obj := Obj 165 "StructWithMethods" (Some k6) 6490 OTypeName (TNamed (TName 165 (Some "sg/testdata") "StructWithMethods") []) None.
Definition o166 : obj := Obj 166 "SingleMethod" (Some k6) 6543 (OFunc (Some (Some (TNamed (TName 165 (Some "sg/testdata") "StructWithMethods") [])))) (TSig [] [(TBasic BFloat64 false)] false) None.
Definition o167 : obj := Obj 167 "InterfaceWithSingleMethodTwoImplementers" (Some k6) 6587 OTypeName (TNamed (TName 167 (Some "sg/testdata") "InterfaceWithSingleMethodTwoImplementers") []) None.
Definition o168 : obj := Obj 168 "TwoImplOne" (Some k6) 6679 OTypeName (TNamed (TName 168 (Some "sg/testdata") "TwoImplOne") []) None.
Definition o169 : obj := Obj 169 "SingleMethodTwoImpl" (Some k6) 6718 (OFunc (Some (Some (TNamed (TName 168 (Some "sg/testdata") "TwoImplOne") [])))) (TSig [] [(TBasic BFloat64 false)] false) None.
Definition o170 : obj := Obj 170 "TwoImplTwo" (Some k6) 6769 OTypeName (TNamed (TName 170 (Some "sg/testdata") "TwoImplTwo") []) None.
Definition o171 : obj := Obj 171 "SingleMethodTwoImpl" (Some k6) 6808 (OFunc (Some (Some (TNamed (TName 170 (Some "sg/testdata") "TwoImplTwo") [])))) (TSig [] [(TBasic BFloat64 false)] false) None.
Definition o172 : obj := Obj 172 "RandomThingThatDoesntMatter" (Some k6) 6879 (OFunc (Some (Some (TNamed (TName 170 (Some "sg/testdata") "TwoImplTwo") [])))) (TSig [] [(TBasic BFloat64 false)] false) None.
Definition o174 : obj := Obj 174 "implementsWriter" (Some k6) 6975 OTypeName (TNamed (TName 174 (Some "sg/testdata") "implementsWriter") []) None.
Definition o175 : obj := Obj 175 "Header" (Some k6) 7026 (OFunc (Some (Some (TNamed (TName 174 (Some "sg/testdata") "implementsWriter") [])))) (TSig [] [(TNamed (TName 112 (Some "net/http") "Header") [])] false) None.
Definition o176 : obj := Obj 176 "Write" (Some k6) 7104 (OFunc (Some (Some (TNamed (TName 174 (Some "sg/testdata") "implementsWriter") [])))) (TSig [(TSlice (TBasic BUint8 true))] [(TBasic BInt false); (TNamed (TName 21 None "error") [])] false) None.
Definition o177 : obj := Obj 177 "WriteHeader" (Some k6) 7183 (OFunc (Some (Some (TNamed (TName 174 (Some "sg/testdata") "implementsWriter") [])))) (TSig [(TBasic BInt false)] [] false) None.
Definition o178 : obj := Obj 178 "ShowsInSignature" (Some k6) 7220 (OFunc (Some None)) (TSig [(TNamed (TName 113 (Some "net/http") "ResponseWriter") [])] [] false) None.
Definition o179 : obj := Obj 179 "." (Some k6) 7329 (OPkgName "fmt") (TBasic BInvalid false) None.
Definition o180 : obj := Obj 180 "h" (Some k6) 7338 (OPkgName "net/http") (TBasic BInvalid false) None.
Definition o181 : obj := Obj 181 "Example" (Some k6) 7359 (OFunc (Some None)) (TSig [] [] false) None.
Definition o193 : obj := Obj 193 "ParallelizableFunc" (Some k6) 7593 OTypeName (TNamed (TName 193 (Some "sg/testdata") "ParallelizableFunc") []) None.
Definition o194 : obj := Obj 194 "Parallel" (Some k6) 7837 (OFunc (Some None)) (TSig [(TNamed (TName 81 (Some "context") "Context") []); (TSlice (TNamed (TName 193 (Some "sg/testdata") "ParallelizableFunc") []))] [(TNamed (TName 21 None "error") [])] true) None.
Definition o196 : obj := Obj 196 "SecretBurger" (Some k6) 8258 OTypeName (TAlias (TName 196 (Some "sg/testdata") "SecretBurger") (TNamed (TName 93 (Some "sg/testdata/internal/secret") "Burger") [])) None.
Definition o197 : obj := Obj 197 "BadBurger" (Some k6) 8293 OTypeName (TAlias (TName 197 (Some "sg/testdata") "BadBurger") (TStruct [(FHdr 267 "Field" (Some "sg/testdata") false "", (TBasic BString false))])) None.
Definition o198 : obj := Obj 198 "Switch" (Some k6) 8354 (OFunc (Some None)) (TSig [(TInterface [] "")] [(TBasic BBool false)] false) None.
Definition o199 : obj := Obj 199 "x" (Some k6) 95 (OVar true) (TBasic BInt false) None.
Definition o200 : obj := Obj 200 "y" (Some k6) 103 (OVar true) (TBasic BString false) None.
Definition o201 : obj := Obj 201 "a" (Some k6) 79 (OVar true) (TStruct [(FHdr 199 "x" (Some "sg/testdata") false "", (TBasic BInt false)); (FHdr 200 "y" (Some "sg/testdata") false "", (TBasic BString false))]) None.
Definition o202 : obj := Obj 202 "b" (Some k6) 82 (OVar true) (TStruct [(FHdr 199 "x" (Some "sg/testdata") false "", (TBasic BInt false)); (FHdr 200 "y" (Some "sg/testdata") false "", (TBasic BString false))]) None.
Definition o203 : obj := Obj 203 "X" (Some k6) 129 (OVar true) (TBasic BInt false) None.
Definition o204 : obj := Obj 204 "Y" (Some k6) 137 (OVar true) (TBasic BString false) None.
Definition o205 : obj := Obj 205 "c" (Some k6) 116 (OVar true) (TStruct [(FHdr 203 "X" (Some "sg/testdata") false "", (TBasic BInt false)); (FHdr 204 "Y" (Some "sg/testdata") false "", (TBasic BString false))]) None.
Definition o206 : obj := Obj 206 "Do" (Some k6) 815 (OFunc (Some (Some (TNamed (TName 96 (Some "sg/testdata") "TestInterface") [])))) (TSig [(TNamed (TName 81 (Some "context") "Context") []); (TBasic BString false)] [(TBasic BInt false); (TNamed (TName 21 None "error") [])] false) None.
Definition o207 : obj := Obj 207 "ctx" (Some k6) 818 (OVar false) (TNamed (TName 81 (Some "context") "Context") []) None.
Definition o208 : obj := Obj 208 "data" (Some k6) 839 (OVar false) (TBasic BString false) None.
Definition o209 : obj := Obj 209 "score" (Some k6) 853 (OVar false) (TBasic BInt false) None.
Definition o210 : obj := Obj 210 "_" (Some k6) 864 (OVar false) (TNamed (TName 21 None "error") []) None.
Definition o211 : obj := Obj 211 "SimpleA" (Some k6) 969 (OVar true) (TBasic BInt false) None.
Definition o212 : obj := Obj 212 "SimpleB" (Some k6) 1001 (OVar true) (TBasic BInt false) None.
Definition o213 : obj := Obj 213 "SimpleC" (Some k6) 1033 (OVar true) (TBasic BInt false) None.
Definition o214 : obj := Obj 214 "FieldWithTag" (Some k6) 1048 (OVar true) (TBasic BString false) None.
Definition o215 : obj := Obj 215 "NestedA" (Some k6) 1128 (OVar true) (TBasic BString false) None.
Definition o216 : obj := Obj 216 "NestedB" (Some k6) 1146 (OVar true) (TBasic BString false) None.
Definition o217 : obj := Obj 217 "NestedC" (Some k6) 1183 (OVar true) (TBasic BString false) None.
Definition o218 : obj := Obj 218 "FieldWithAnonymousType" (Some k6) 1093 (OVar true) (TStruct [(FHdr 215 "NestedA" (Some "sg/testdata") false "", (TBasic BString false)); (FHdr 216 "NestedB" (Some "sg/testdata") false "", (TBasic BString false)); (FHdr 217 "NestedC" (Some "sg/testdata") false "", (TBasic BString false))]) None.
Definition o219 : obj := Obj 219 "EmptyStructField" (Some k6) 1205 (OVar true) (TStruct []) None.
Definition o220 : obj := Obj 220 "ctx" (Some k6) 4802 (OVar false) (TNamed (TName 81 (Some "context") "Context") []) None.
Definition o221 : obj := Obj 221 "data" (Some k6) 4823 (OVar false) (TBasic BString false) None.
Definition o222 : obj := Obj 222 "score" (Some k6) 4837 (OVar false) (TBasic BInt false) None.
Definition o223 : obj := Obj 223 "err" (Some k6) 4848 (OVar false) (TNamed (TName 21 None "error") []) None.
Definition o224 : obj := Obj 224 "ts" (Some k6) 4781 (OVar false) (TPointer (TNamed (TName 97 (Some "sg/testdata") "TestStruct") [])) None.
Definition o225 : obj := Obj 225 "Value" (Some k6) 5160 (OVar true) (TBasic BInt false) None.
Definition o226 : obj := Obj 226 "Value" (Some k6) 5226 (OVar true) (TBasic BInt false) None.
Definition o227 : obj := Obj 227 "InnerStruct" (Some k6) 5375 (OVar true) (TNamed (TName 110 (Some "sg/testdata") "InnerStruct") []) None.
Definition o228 : obj := Obj 228 "Handler" (Some k6) 5488 (OVar true) (TNamed (TName 115 (Some "net/http") "Handler") []) None.
Definition o229 : obj := Obj 229 "Other" (Some k6) 5497 (OVar true) (TBasic BInt false) None.
Definition o230 : obj := Obj 230 "F1" (Some k6) 5570 (OFunc (Some (Some (TNamed (TName 139 (Some "sg/testdata") "I1") [])))) (TSig [] [] false) None.
Definition o231 : obj := Obj 231 "F2" (Some k6) 5599 (OFunc (Some (Some (TNamed (TName 140 (Some "sg/testdata") "I2") [])))) (TSig [] [] false) None.
Definition o232 : obj := Obj 232 "r" (Some k6) 5626 (OVar false) (TNamed (TName 141 (Some "sg/testdata") "T1") []) None.
Definition o233 : obj := Obj 233 "r" (Some k6) 5660 (OVar false) (TNamed (TName 143 (Some "sg/testdata") "T2") []) None.
Definition o234 : obj := Obj 234 "r" (Some k6) 5680 (OVar false) (TNamed (TName 143 (Some "sg/testdata") "T2") []) None.
Definition o235 : obj := Obj 235 "nonExportedMethod" (Some k6) 5772 (OFunc (Some (Some (TNamed (TName 148 (Some "sg/testdata") "InterfaceWithNonExportedMethod") [])))) (TSig [] [] false) None.
Definition o236 : obj := Obj 236 "ExportedMethod" (Some k6) 5841 (OFunc (Some (Some (TNamed (TName 149 (Some "sg/testdata") "InterfaceWithExportedMethod") [])))) (TSig [] [] false) None.
Definition o237 : obj := Obj 237 "r" (Some k6) 5881 (OVar false) (TNamed (TName 150 (Some "sg/testdata") "Foo") []) None.
Definition o238 : obj := Obj 238 "r" (Some k6) 5917 (OVar false) (TNamed (TName 150 (Some "sg/testdata") "Foo") []) None.
Definition o239 : obj := Obj 239 "r" (Some k6) 5953 (OVar false) (TNamed (TName 150 (Some "sg/testdata") "Foo") []) None.
Definition o240 : obj := Obj 240 "Shared" (Some k6) 6012 (OFunc (Some (Some (TNamed (TName 154 (Some "sg/testdata") "SharedOne") [])))) (TSig [] [] false) None.
Definition o241 : obj := Obj 241 "Distinct" (Some k6) 6022 (OFunc (Some (Some (TNamed (TName 154 (Some "sg/testdata") "SharedOne") [])))) (TSig [] [] false) None.
Definition o242 : obj := Obj 242 "Shared" (Some k6) 6064 (OFunc (Some (Some (TNamed (TName 155 (Some "sg/testdata") "SharedTwo") [])))) (TSig [] [] false) None.
Definition o243 : obj := Obj 243 "Unique" (Some k6) 6074 (OFunc (Some (Some (TNamed (TName 155 (Some "sg/testdata") "SharedTwo") [])))) (TSig [] [] false) None.
Definition o244 : obj := Obj 244 "shared" (Some k6) 6213 (OVar false) (TNamed (TName 154 (Some "sg/testdata") "SharedOne") []) None.
Definition o245 : obj := Obj 245 "ScipTestMethod" (Some k6) 6292 (OFunc (Some (Some (TNamed (TName 161 (Some "sg/testdata") "I3") [])))) (TSig [] [] false) None.
Definition o246 : obj := Obj 246 "ScipTestMethod" (Some k6) 6341 (OFunc (Some (Some (TNamed (TName 162 (Some "sg/testdata") "EmbeddedI3") [])))) (TSig [] [] false) None.
Definition o247 : obj := Obj 247 "EmbeddedI3" (Some k6) 6383 (OVar true) (TNamed (TName 162 (Some "sg/testdata") "EmbeddedI3") []) None.
Definition o248 : obj := Obj 248 "SingleMethod" (Some k6) 6459 (OFunc (Some (Some (TNamed (TName 164 (Some "sg/testdata") "InterfaceWithSingleMethod") [])))) (TSig [] [(TBasic BFloat64 false)] false) None.
Definition o251 : obj := Obj 251 "SingleMethodTwoImpl" (Some k6) 6641 (OFunc (Some (Some (TNamed (TName 167 (Some "sg/testdata") "InterfaceWithSingleMethodTwoImplementers") [])))) (TSig [] [(TBasic BFloat64 false)] false) None.
Definition o260 : obj := Obj 260 "statusCode" (Some k6) 7195 (OVar false) (TBasic BInt false) None.
Definition o261 : obj := Obj 261 "respWriter" (Some k6) 7237 (OVar false) (TNamed (TName 113 (Some "net/http") "ResponseWriter") []) None.
Definition o262 : obj := Obj 262 "ctx" (Some k6) 7617 (OVar false) (TNamed (TName 81 (Some "context") "Context") []) None.
Definition o264 : obj := Obj 264 "ctx" (Some k6) 7846 (OVar false) (TNamed (TName 81 (Some "context") "Context") []) None.
Definition o265 : obj := Obj 265 "fns" (Some k6) 7867 (OVar false) (TSlice (TNamed (TName 193 (Some "sg/testdata") "ParallelizableFunc") [])) None.
Definition o267 : obj := Obj 267 "Field" (Some k6) 8315 (OVar true) (TBasic BString false) None.
Definition o268 : obj := Obj 268 "interfaceValue" (Some k6) 8361 (OVar false) (TInterface [] "") None.
Definition o270 : obj := Obj 270 "x" (Some k6) 209 (OVar true) (TBasic BInt false) None.
Definition o271 : obj := Obj 271 "y" (Some k6) 217 (OVar true) (TBasic BString false) None.
Definition o272 : obj := Obj 272 "d" (Some k6) 193 (OVar false) (TStruct [(FHdr 270 "x" (Some "sg/testdata") false "", (TBasic BInt false)); (FHdr 271 "y" (Some "sg/testdata") false "", (TBasic BString false))]) None.
Definition o274 : obj := Obj 274 "x" (Some k6) 272 (OVar true) (TBasic BInt false) None.
Definition o275 : obj := Obj 275 "y" (Some k6) 280 (OVar true) (TBasic BString false) None.
Definition o273 : obj := Obj 273 "e" (Some k6) 259 (OVar false) (TStruct [(FHdr 274 "x" (Some "sg/testdata") false "", (TBasic BInt false)); (FHdr 275 "y" (Some "sg/testdata") false "", (TBasic BString false))]) None.
Definition o276 : obj := Obj 276 "f" (Some k6) 321 (OVar false) (TNamed (TName 79 (Some "sg/testdata") "TypeContainingAnonymousStructs") []) None.
Definition o277 : obj := Obj 277 "wg" (Some k6) 7907 (OVar false) (TNamed (TName 183 (Some "sync") "WaitGroup") []) None.
Definition o278 : obj := Obj 278 "errs" (Some k6) 7926 (OVar false) (TChan 0 (TNamed (TName 21 None "error") [])) None.
Definition o279 : obj := Obj 279 "_" (Some k6) 7967 (OVar false) (TBasic BInt false) None.
Definition o280 : obj := Obj 280 "fn" (Some k6) 7970 (OVar false) (TNamed (TName 193 (Some "sg/testdata") "ParallelizableFunc") []) None.
Definition o281 : obj := Obj 281 "fn" (Some k6) 8011 (OVar false) (TNamed (TName 193 (Some "sg/testdata") "ParallelizableFunc") []) None.
Definition o282 : obj := Obj 282 "err" (Some k6) 8097 (OVar false) (TNamed (TName 21 None "error") []) None.
Definition o17 : obj := Obj 17 "string" None 0 OTypeName (TBasic BString false) None.
Definition o91 : obj := Obj 91 "context" (Some k6) 661 (OPkgName "context") (TBasic BInvalid false) None.
Definition o21 : obj := Obj 21 "error" None 0 OTypeName (TNamed (TName 21 None "error") []) None.
Definition o95 : obj := Obj 95 "secret" (Some k6) 673 (OPkgName "sg/testdata/internal/secret") (TBasic BInvalid false) None.
Definition o136 : obj := Obj 136 "http" (Some k6) 5442 (OPkgName "net/http") (TBasic BInvalid false) None.
Definition o14 : obj := Obj 14 "float64" None 0 OTypeName (TBasic BFloat64 false) None.
Definition o173 : obj := Obj 173 "http" (Some k6) 6958 (OPkgName "net/http") (TBasic BInvalid false) None.
Definition o18 : obj := Obj 18 "byte" None 0 OTypeName (TBasic BUint8 true) None.
Definition o182 : obj := Obj 182 "context" (Some k6) 7452 (OPkgName "context") (TBasic BInvalid false) None.
Definition o195 : obj := Obj 195 "secret" (Some k6) 8200 (OPkgName "sg/testdata/internal/secret") (TBasic BInvalid false) None.
Definition o1 : obj := Obj 1 "bool" None 0 OTypeName (TBasic BBool false) None.
Definition o78 : obj := Obj 78 "fmt" (Some k6) 26 (OPkgName "fmt") (TBasic BInvalid false) None.
Definition o28 : obj := Obj 28 "nil" None 0 ONil (TBasic BUntypedNil false) None.
Definition o42 : obj := Obj 42 "panic" None 0 OBuiltin (TBasic BInvalid false) None.
Definition o192 : obj := Obj 192 "sync" (Some k6) 7463 (OPkgName "sync") (TBasic BInvalid false) None.
Definition o38 : obj := Obj 38 "make" None 0 OBuiltin (TBasic BInvalid false) None.
Definition o37 : obj := Obj 37 "len" None 0 OBuiltin (TBasic BInvalid false) None.
Definition o283 : obj := Obj 283 "concreteValue" (Some k6) 8404 (OVar false) (TBasic BInt false) None.
Definition o284 : obj := Obj 284 "concreteValue" (Some k6) 8404 (OVar false) (TBasic BBool false) None.
Definition o26 : obj := Obj 26 "false" None 0 OConst (TBasic BUntypedBool false) None.
Definition o285 : obj := Obj 285 "concreteValue" (Some k6) 8404 (OVar false) (TInterface [] "") None.
Definition defs7 : list (nat * obj) := [(11, o79); (26, o80); (104, o96); (116, o97); (136, o98); (138, o99); (140, o100); (143, o101); (144, o102); (145, o103); (146, o104); (148, o105); (152, o106); (164, o107); (168, o108); (172, o109); (175, o110); (179, o137); (186, o138); (188, o139); (191, o140); (194, o141); (198, o142); (199, o143); (203, o144); (206, o145); (207, o146); (209, o147); (211, o148); (214, o149); (217, o150); (221, o151); (224, o152); (227, o153); (228, o154); (232, o155); (236, o156); (239, o157); (241, o158); (243, o159); (244, o160); (250, o161); (253, o162); (256, o163); (260, o164); (264, o165); (267, o166); (269, o167); (273, o168); (276, o169); (278, o170); (281, o171); (284, o172); (288, o174); (291, o175); (296, o176); (302, o177); (305, o178); (313, o179); (315, o180); (316, o181); (323, o193); (328, o194); (366, o196); (369, o197); (374, o198); (16, o199); (18, o200); (13, o201); (14, o202); (22, o203); (24, o204); (20, o205); (106, o206); (107, o207); (110, o208); (112, o209); (114, o210); (118, o211); (120, o212); (122, o213); (124, o214); (128, o215); (130, o216); (132, o217); (126, o218); (134, o219); (153, o220); (156, o221); (158, o222); (160, o223); (150, o224); (166, o225); (170, o226); (174, o227); (182, o228); (183, o229); (190, o230); (193, o231); (196, o232); (201, o233); (204, o234); (213, o235); (216, o236); (219, o237); (222, o238); (225, o239); (230, o240); (231, o241); (234, o242); (235, o243); (245, o244); (252, o245); (255, o246); (258, o247); (262, o248); (271, o251); (303, o260); (306, o261); (324, o262); (329, o264); (332, o265); (371, o267); (375, o268); (29, o270); (31, o271); (27, o272); (37, o274); (39, o275); (35, o273); (45, o276); (335, o277); (338, o278); (343, o279); (344, o280); (348, o281); (358, o282)].
Definition uses7 : list (nat * obj) := [(17, o2); (19, o17); (23, o2); (25, o17); (108, o91); (109, o81); (111, o17); (113, o2); (115, o21); (119, o2); (121, o2); (123, o2); (125, o17); (129, o17); (131, o17); (133, o17); (139, o11); (141, o95); (142, o92); (147, o17); (149, o104); (151, o97); (154, o91); (155, o81); (157, o17); (159, o2); (161, o21); (167, o2); (171, o2); (174, o110); (181, o136); (182, o115); (184, o2); (195, o2); (197, o141); (200, o2); (202, o143); (205, o143); (208, o141); (210, o146); (218, o2); (220, o150); (223, o150); (226, o150); (238, o156); (240, o156); (242, o156); (246, o154); (258, o162); (263, o14); (266, o165); (268, o14); (272, o14); (275, o168); (277, o14); (280, o170); (282, o14); (283, o170); (285, o14); (290, o174); (292, o173); (293, o112); (295, o174); (297, o18); (298, o2); (299, o21); (301, o174); (304, o2); (307, o173); (308, o113); (325, o182); (326, o81); (327, o21); (330, o182); (331, o81); (333, o193); (334, o21); (367, o195); (368, o93); (372, o17); (377, o1); (30, o2); (32, o17); (33, o270); (34, o271); (38, o2); (40, o17); (41, o273); (42, o274); (43, o273); (44, o275); (46, o79); (47, o276); (48, o201); (49, o199); (50, o276); (51, o201); (52, o200); (53, o276); (54, o202); (55, o199); (56, o276); (57, o202); (58, o200); (59, o276); (60, o205); (61, o203); (62, o276); (63, o205); (64, o204); (65, o78); (66, o56); (67, o272); (68, o270); (69, o272); (70, o271); (71, o78); (72, o56); (73, o273); (74, o274); (75, o273); (76, o275); (77, o78); (78, o56); (79, o276); (80, o201); (81, o199); (82, o276); (83, o201); (84, o200); (85, o78); (86, o56); (87, o276); (88, o202); (89, o199); (90, o276); (91, o202); (92, o200); (93, o78); (94, o56); (95, o276); (96, o205); (97, o203); (98, o276); (99, o205); (100, o204); (162, o99); (163, o28); (247, o244); (248, o240); (294, o42); (300, o42); (309, o261); (310, o126); (317, o55); (318, o180); (319, o119); (336, o192); (337, o183); (339, o38); (340, o21); (341, o37); (342, o265); (345, o265); (346, o277); (347, o184); (349, o193); (350, o278); (351, o281); (352, o264); (353, o277); (354, o185); (355, o280); (356, o277); (357, o186); (359, o278); (360, o282); (361, o28); (362, o282); (363, o28); (379, o268); (380, o2); (381, o283); (382, o1); (383, o284); (384, o26)].
Definition canon7 : list (nat * hty) := [(15, (HStruct [("x", false, "", (HBasic "int")); ("y", false, "", (HBasic "string"))])); (21, (HStruct [("X", false, "", (HBasic "int")); ("Y", false, "", (HBasic "string"))])); (12, (HStruct [("a", false, "", (HStruct [("x", false, "", (HBasic "int")); ("y", false, "", (HBasic "string"))])); ("b", false, "", (HStruct [("x", false, "", (HBasic "int")); ("y", false, "", (HBasic "string"))])); ("c", false, "", (HStruct [("X", false, "", (HBasic "int")); ("Y", false, "", (HBasic "string"))]))])); (105, (HInterface false [("Do", (HSig [] [("ctx", (HNamed (HName (Some (HPkg "context" "context")) "Context") [] [])); ("data", (HBasic "string"))] [("score", (HBasic "int")); ("_", (HNamed (HName None "error") [] []))] false))] [])); (127, (HStruct [("NestedA", false, "", (HBasic "string")); ("NestedB", false, "", (HBasic "string")); ("NestedC", false, "", (HBasic "string"))])); (135, (HStruct [])); (117, (HStruct [("SimpleA", false, "", (HBasic "int")); ("SimpleB", false, "", (HBasic "int")); ("SimpleC", false, "", (HBasic "int")); ("FieldWithTag", false, "json:""tag""", (HBasic "string")); ("FieldWithAnonymousType", false, "", (HStruct [("NestedA", false, "", (HBasic "string")); ("NestedB", false, "", (HBasic "string")); ("NestedC", false, "", (HBasic "string"))])); ("EmptyStructField", false, "", (HStruct []))])); (137, (HStruct [])); (165, (HStruct [("Value", false, "key:"",range=[:}""", (HBasic "int"))])); (169, (HStruct [("Value", false, "", (HBasic "int"))])); (176, (HStruct [])); (173, (HStruct [("InnerStruct", true, "", (HNamed (HName (Some (HPkg "sg/testdata" "testdata")) "InnerStruct") [] []))])); (180, (HStruct [("Handler", true, "", (HNamed (HName (Some (HPkg "net/http" "http")) "Handler") [] [])); ("Other", false, "", (HBasic "int"))])); (187, (HInterface false [] [])); (189, (HInterface false [("F1", (HSig [] [] [] false))] [])); (192, (HInterface false [("F2", (HSig [] [] [] false))] [])); (212, (HInterface false [("nonExportedMethod", (HSig [] [] [] false))] [])); (215, (HInterface false [("ExportedMethod", (HSig [] [] [] false))] [])); (229, (HInterface false [("Distinct", (HSig [] [] [] false)); ("Shared", (HSig [] [] [] false))] [])); (233, (HInterface false [("Shared", (HSig [] [] [] false)); ("Unique", (HSig [] [] [] false))] [])); (237, (HStruct [])); (251, (HInterface false [("ScipTestMethod", (HSig [] [] [] false))] [])); (254, (HInterface false [("ScipTestMethod", (HSig [] [] [] false))] [])); (257, (HStruct [("EmbeddedI3", true, "", (HNamed (HName (Some (HPkg "sg/testdata" "testdata")) "EmbeddedI3") [] []))])); (261, (HInterface false [("SingleMethod", (HSig [] [] [("", (HBasic "float64"))] false))] [])); (265, (HStruct [])); (270, (HInterface false [("SingleMethodTwoImpl", (HSig [] [] [("", (HBasic "float64"))] false))] [])); (274, (HStruct [])); (279, (HStruct [])); (289, (HStruct [])); (370, (HStruct [("Field", false, "", (HBasic "string"))])); (376, (HInterface false [] [])); (28, (HStruct [("x", false, "", (HBasic "int")); ("y", false, "", (HBasic "string"))])); (36, (HStruct [("x", false, "", (HBasic "int")); ("y", false, "", (HBasic "string"))]))].
Definition pkgnames7 : list (nat * obj) := [(10, o78); (102, o91); (103, o95); (178, o136); (287, o173); (312, o179); (314, o180); (321, o182); (322, o192); (365, o195)].
Definition cases7 : list obj := [o283; o284; o285].
(* testdata/cmd/minimal_main/minimal_main.go *)
Definition f8_0 : node := (NFile 8754 false "" (Ident 385 "main" 8762)
  [(NGenDecl 8768 TYPE "" [(NTypeSpec "" (Ident 386 "User" 8773) (NFieldList []) (NStructType 387 8778 (NFieldList [(NField "" "" [(Ident 388 "Id" 8788); (Ident 389 "Name" 8792)] (NIdent (Ident 390 "string" 8797)))])))]);
   (NGenDecl 8807 TYPE "" [(NTypeSpec "" (Ident 391 "UserResource" 8812) (NFieldList []) (NStructType 392 8825 (NFieldList [])))]);
   (NFuncDecl "" 8835 8849 None (Ident 393 "main" 8840) (NFuncType 8835 (NFieldList []) (NFieldList []) (NFieldList [])) (Some (NBlockStmt 8847 [])))]).
Definition k7 : tpkg := TPkg "sg/testdata/cmd/minimal_main" [SEntry "User" true (TNamed (TName 286 (Some "sg/testdata/cmd/minimal_main") "User") []); SEntry "UserResource" true (TNamed (TName 287 (Some "sg/testdata/cmd/minimal_main") "UserResource") []); SEntry "main" false (TBasic BInvalid false)].
Definition o286 : obj := Obj 286 "User" (Some k7) 8773 OTypeName (TNamed (TName 286 (Some "sg/testdata/cmd/minimal_main") "User") []) None.
Definition o287 : obj := Obj 287 "UserResource" (Some k7) 8812 OTypeName (TNamed (TName 287 (Some "sg/testdata/cmd/minimal_main") "UserResource") []) None.
Definition o288 : obj := Obj 288 "main" (Some k7) 8840 (OFunc (Some None)) (TSig [] [] false) None.
Definition o289 : obj := Obj 289 "Id" (Some k7) 8788 (OVar true) (TBasic BString false) None.
Definition o290 : obj := Obj 290 "Name" (Some k7) 8792 (OVar true) (TBasic BString false) None.
Definition defs8 : list (nat * obj) := [(386, o286); (391, o287); (393, o288); (388, o289); (389, o290)].
Definition uses8 : list (nat * obj) := [(390, o17)].
Definition canon8 : list (nat * hty) := [(387, (HStruct [("Id", false, "", (HBasic "string")); ("Name", false, "", (HBasic "string"))])); (392, (HStruct []))].
Definition pkgnames8 : list (nat * obj) := [].
Definition cases8 : list obj := [].
Definition k8 : tpkg := TPkg "errors" [SEntry "New" false (TBasic BInvalid false)].
Definition o291 : obj := Obj 291 "New" (Some k8) 10001071 (OFunc (Some None)) (TSig [(TBasic BString false)] [(TNamed (TName 21 None "error") [])] false) None.
Definition k9 : tpkg := TPkg "testing" [SEntry "T" true (TNamed (TName 297 (Some "testing") "T") []); SEntry "common" true (TNamed (TName 295 (Some "testing") "common") [])].
Definition o297 : obj := Obj 297 "T" (Some k9) 10001185 OTypeName (TNamed (TName 297 (Some "testing") "T") []) None.
Definition o295 : obj := Obj 295 "common" (Some k9) 10001116 OTypeName (TNamed (TName 295 (Some "testing") "common") []) None.
Definition o296 : obj := Obj 296 "Log" (Some k9) 10001163 (OFunc (Some (Some (TPointer (TNamed (TName 295 (Some "testing") "common") []))))) (TSig [(TSlice (TAlias (TName 20 None "any") (TInterface [] "")))] [] true) None.
(* testdata/conflicting_test_symbols/sandbox_unsupported_test.go *)
Definition f11_0 : node := (NFile 8929 false "" (Ident 394 "osl" 8937)
  [(NGenDecl 8942 IMPORT "" [(NImportSpec 395 None 8952 """errors"""); (NImportSpec 396 None 8962 """testing""")]);
   (NGenDecl 8975 VAR "" [(NValueSpec "" "" [(Ident 397 "ErrNotImplemented" 8979)] None [(NOther 8999 [(NSelectorExpr (NIdent (Ident 398 "errors" 8999)) (Ident 399 "New" 9006))])])]);
   (NFuncDecl "" 9030 9105 None (Ident 400 "newKey" 9035) (NFuncType 9030 (NFieldList []) (NFieldList [(NField "" "" [(Ident 401 "t" 9042)] (NStarExpr 9044 (NSelectorExpr (NIdent (Ident 402 "testing" 9045)) (Ident 403 "T" 9053))))]) (NFieldList [(NField "" "" [] (NIdent (Ident 404 "string" 9057))); (NField "" "" [] (NIdent (Ident 405 "error" 9065)))])) (Some (NBlockStmt 9072 [(NOther 9075 [(NIdent (Ident 406 "ErrNotImplemented" 9086))])])));
   (NFuncDecl "" 9107 9161 None (Ident 407 "verifySandbox" 9112) (NFuncType 9107 (NFieldList []) (NFieldList [(NField "" "" [(Ident 408 "t" 9126)] (NStarExpr 9128 (NSelectorExpr (NIdent (Ident 409 "testing" 9129)) (Ident 410 "T" 9137)))); (NField "" "" [(Ident 411 "s" 9140)] (NIdent (Ident 412 "string" 9142)))]) (NFieldList [])) (Some (NBlockStmt 9150 [(NOther 9153 [])])))]).
Definition k10 : tpkg := TPkg "sg/testdata/conflicting_test_symbols" [SEntry "ErrNotImplemented" false (TBasic BInvalid false); SEntry "newKey" false (TBasic BInvalid false); SEntry "verifySandbox" false (TBasic BInvalid false)].
Definition o303 : obj := Obj 303 "ErrNotImplemented" (Some k10) 8979 (OVar false) (TNamed (TName 21 None "error") []) None.
Definition o304 : obj := Obj 304 "newKey" (Some k10) 9035 (OFunc (Some None)) (TSig [(TPointer (TNamed (TName 297 (Some "testing") "T") []))] [(TBasic BString false); (TNamed (TName 21 None "error") [])] false) None.
Definition o305 : obj := Obj 305 "verifySandbox" (Some k10) 9112 (OFunc (Some None)) (TSig [(TPointer (TNamed (TName 297 (Some "testing") "T") [])); (TBasic BString false)] [] false) None.
Definition o306 : obj := Obj 306 "t" (Some k10) 9042 (OVar false) (TPointer (TNamed (TName 297 (Some "testing") "T") [])) None.
Definition o309 : obj := Obj 309 "t" (Some k10) 9126 (OVar false) (TPointer (TNamed (TName 297 (Some "testing") "T") [])) None.
Definition o310 : obj := Obj 310 "s" (Some k10) 9140 (OVar false) (TBasic BString false) None.
Definition o294 : obj := Obj 294 "errors" (Some k10) 8952 (OPkgName "errors") (TBasic BInvalid false) None.
Definition o302 : obj := Obj 302 "testing" (Some k10) 8962 (OPkgName "testing") (TBasic BInvalid false) None.
Definition defs11 : list (nat * obj) := [(397, o303); (400, o304); (407, o305); (401, o306); (408, o309); (411, o310)].
Definition uses11 : list (nat * obj) := [(398, o294); (399, o291); (402, o302); (403, o297); (404, o17); (405, o21); (409, o302); (410, o297); (412, o17); (406, o303)].
Definition canon11 : list (nat * hty) := [].
Definition pkgnames11 : list (nat * obj) := [(395, o294); (396, o302)].
Definition cases11 : list obj := [].
(* testdata/duplicate_path_id/main.go *)
Definition f12_0 : node := (NFile 9163 false "" (Ident 413 "gosrc" 9171)
  [(NGenDecl 9178 TYPE "" [(NTypeSpec "" (Ident 414 "importMeta" 9183) (NFieldList []) (NStructType 415 9194 (NFieldList [])))]);
   (NGenDecl 9204 TYPE "" [(NTypeSpec "" (Ident 416 "sourceMeta" 9209) (NFieldList []) (NStructType 417 9220 (NFieldList [])))]);
   (NFuncDecl "" 9230 9299 None (Ident 418 "fetchMeta" 9235) (NFuncType 9230 (NFieldList []) (NFieldList []) (NFieldList [(NField "" "" [] (NIdent (Ident 419 "string" 9248))); (NField "" "" [] (NStarExpr 9256 (NIdent (Ident 420 "importMeta" 9257)))); (NField "" "" [] (NStarExpr 9269 (NIdent (Ident 421 "sourceMeta" 9270))))])) (Some (NBlockStmt 9282 [(NOther 9285 [(NOther 9285 [(NIdent (Ident 422 "panic" 9285))])])])));
   (NFuncDecl "" 9301 9315 None (Ident 423 "init" 9306) (NFuncType 9301 (NFieldList []) (NFieldList []) (NFieldList [])) (Some (NBlockStmt 9313 [])));
   (NFuncDecl "" 9316 9330 None (Ident 424 "init" 9321) (NFuncType 9316 (NFieldList []) (NFieldList []) (NFieldList [])) (Some (NBlockStmt 9328 [])));
   (NFuncDecl "" 9331 9345 None (Ident 425 "init" 9336) (NFuncType 9331 (NFieldList []) (NFieldList []) (NFieldList [])) (Some (NBlockStmt 9343 [])))]).
(* testdata/duplicate_path_id/two.go *)
Definition f12_1 : node := (NFile 9347 false "" (Ident 426 "gosrc" 9355)
  [(NFuncDecl "" 9362 9376 None (Ident 427 "init" 9367) (NFuncType 9362 (NFieldList []) (NFieldList []) (NFieldList [])) (Some (NBlockStmt 9374 [])))]).
Definition k11 : tpkg := TPkg "sg/testdata/duplicate_path_id" [SEntry "fetchMeta" false (TBasic BInvalid false); SEntry "importMeta" true (TNamed (TName 311 (Some "sg/testdata/duplicate_path_id") "importMeta") []); SEntry "sourceMeta" true (TNamed (TName 312 (Some "sg/testdata/duplicate_path_id") "sourceMeta") [])].
Definition o311 : obj := Obj 311 "importMeta" (Some k11) 9183 OTypeName (TNamed (TName 311 (Some "sg/testdata/duplicate_path_id") "importMeta") []) None.
Definition o312 : obj := Obj 312 "sourceMeta" (Some k11) 9209 OTypeName (TNamed (TName 312 (Some "sg/testdata/duplicate_path_id") "sourceMeta") []) None.
Definition o313 : obj := Obj 313 "fetchMeta" (Some k11) 9235 (OFunc (Some None)) (TSig [] [(TBasic BString false); (TPointer (TNamed (TName 311 (Some "sg/testdata/duplicate_path_id") "importMeta") [])); (TPointer (TNamed (TName 312 (Some "sg/testdata/duplicate_path_id") "sourceMeta") []))] false) None.
Definition o314 : obj := Obj 314 "init" (Some k11) 9306 (OFunc (Some None)) (TSig [] [] false) None.
Definition o315 : obj := Obj 315 "init" (Some k11) 9321 (OFunc (Some None)) (TSig [] [] false) None.
Definition o316 : obj := Obj 316 "init" (Some k11) 9336 (OFunc (Some None)) (TSig [] [] false) None.
Definition o317 : obj := Obj 317 "init" (Some k11) 9367 (OFunc (Some None)) (TSig [] [] false) None.
Definition defs12 : list (nat * obj) := [(414, o311); (416, o312); (418, o313); (423, o314); (424, o315); (425, o316); (427, o317)].
Definition uses12 : list (nat * obj) := [(419, o17); (420, o311); (421, o312); (422, o42)].
Definition canon12 : list (nat * hty) := [(415, (HStruct [])); (417, (HStruct []))].
Definition pkgnames12 : list (nat * obj) := [].
Definition cases12 : list obj := [].
Definition o22 : obj := Obj 22 "Error" None 0 (OFunc (Some (Some (TNamed (TName 21 None "error") [])))) (TSig [] [(TBasic BString false)] false) None.
Definition hobjs : list (nat * hobj) := [(92, HObj "SecretScore" (Some (HPkg "sg/testdata/internal/secret" "secret")) true (HConst (HBasic "uint64") "43"));
  (93, HObj "Burger" (Some (HPkg "sg/testdata/internal/secret" "secret")) true (HTypeName (DDefined [] (HStruct [("Field", false, "", (HBasic "int"))]))));
  (94, HObj "Field" (Some (HPkg "sg/testdata/internal/secret" "secret")) false (HVar true (HBasic "int")));
  (79, HObj "TypeContainingAnonymousStructs" (Some (HPkg "sg/testdata" "testdata")) true (HTypeName (DDefined [] (HStruct [("a", false, "", (HStruct [("x", false, "", (HBasic "int")); ("y", false, "", (HBasic "string"))])); ("b", false, "", (HStruct [("x", false, "", (HBasic "int")); ("y", false, "", (HBasic "string"))])); ("c", false, "", (HStruct [("X", false, "", (HBasic "int")); ("Y", false, "", (HBasic "string"))]))]))));
  (80, HObj "funcContainingAnonymousStructs" (Some (HPkg "sg/testdata" "testdata")) true (HFunc None (HSig [] [] [] false)));
  (96, HObj "TestInterface" (Some (HPkg "sg/testdata" "testdata")) true (HTypeName (DDefined [] (HInterface false [("Do", (HSig [] [("ctx", (HNamed (HName (Some (HPkg "context" "context")) "Context") [] [])); ("data", (HBasic "string"))] [("score", (HBasic "int")); ("_", (HNamed (HName None "error") [] []))] false))] []))));
  (97, HObj "TestStruct" (Some (HPkg "sg/testdata" "testdata")) true (HTypeName (DDefined [] (HStruct [("SimpleA", false, "", (HBasic "int")); ("SimpleB", false, "", (HBasic "int")); ("SimpleC", false, "", (HBasic "int")); ("FieldWithTag", false, "json:""tag""", (HBasic "string")); ("FieldWithAnonymousType", false, "", (HStruct [("NestedA", false, "", (HBasic "string")); ("NestedB", false, "", (HBasic "string")); ("NestedC", false, "", (HBasic "string"))])); ("EmptyStructField", false, "", (HStruct []))]))));
  (98, HObj "TestEmptyStruct" (Some (HPkg "sg/testdata" "testdata")) true (HTypeName (DDefined [] (HStruct []))));
  (99, HObj "Score" (Some (HPkg "sg/testdata" "testdata")) true (HConst (HBasic "uint64") "42"));
  (100, HObj "secretScore" (Some (HPkg "sg/testdata" "testdata")) true (HConst (HBasic "uint64") "43"));
  (101, HObj "SomeString" (Some (HPkg "sg/testdata" "testdata")) true (HConst (HBasic "untyped string") """foobar"""));
  (102, HObj "LongString" (Some (HPkg "sg/testdata" "testdata")) true (HConst (HBasic "untyped string") """Lorem ipsum dolor sit amet, consectetur adipiscing elit. Sed tincidu..."));
  (103, HObj "ConstMath" (Some (HPkg "sg/testdata" "testdata")) true (HConst (HBasic "untyped int") "26"));
  (104, HObj "StringAlias" (Some (HPkg "sg/testdata" "testdata")) true (HTypeName (DDefined [] (HBasic "string"))));
  (105, HObj "AliasedString" (Some (HPkg "sg/testdata" "testdata")) true (HConst (HNamed (HName (Some (HPkg "sg/testdata" "testdata")) "StringAlias") [] []) """foobar"""));
  (106, HObj "Doer" (Some (HPkg "sg/testdata" "testdata")) false (HFunc (Some (HPointer (HNamed (HName (Some (HPkg "sg/testdata" "testdata")) "TestStruct") [] []))) (HSig [] [("ctx", (HNamed (HName (Some (HPkg "context" "context")) "Context") [] [])); ("data", (HBasic "string"))] [("score", (HBasic "int")); ("err", (HNamed (HName None "error") [] []))] false)));
  (107, HObj "StructTagRegression" (Some (HPkg "sg/testdata" "testdata")) true (HTypeName (DDefined [] (HStruct [("Value", false, "key:"",range=[:}""", (HBasic "int"))]))));
  (108, HObj "TestEqualsStruct" (Some (HPkg "sg/testdata" "testdata")) true (HTypeName (DAlias [] (HStruct [("Value", false, "", (HBasic "int"))]))));
  (109, HObj "ShellStruct" (Some (HPkg "sg/testdata" "testdata")) true (HTypeName (DDefined [] (HStruct [("InnerStruct", true, "", (HNamed (HName (Some (HPkg "sg/testdata" "testdata")) "InnerStruct") [] []))]))));
  (110, HObj "InnerStruct" (Some (HPkg "sg/testdata" "testdata")) true (HTypeName (DDefined [] (HStruct []))));
  (137, HObj "NestedHandler" (Some (HPkg "sg/testdata" "testdata")) true (HTypeName (DDefined [] (HStruct [("Handler", true, "", (HNamed (HName (Some (HPkg "net/http" "http")) "Handler") [] [])); ("Other", false, "", (HBasic "int"))]))));
  (138, HObj "I0" (Some (HPkg "sg/testdata" "testdata")) true (HTypeName (DDefined [] (HInterface false [] []))));
  (139, HObj "I1" (Some (HPkg "sg/testdata" "testdata")) true (HTypeName (DDefined [] (HInterface false [("F1", (HSig [] [] [] false))] []))));
  (140, HObj "I2" (Some (HPkg "sg/testdata" "testdata")) true (HTypeName (DDefined [] (HInterface false [("F2", (HSig [] [] [] false))] []))));
  (141, HObj "T1" (Some (HPkg "sg/testdata" "testdata")) true (HTypeName (DDefined [] (HBasic "int"))));
  (142, HObj "F1" (Some (HPkg "sg/testdata" "testdata")) false (HFunc (Some (HNamed (HName (Some (HPkg "sg/testdata" "testdata")) "T1") [] [])) (HSig [] [] [] false)));
  (143, HObj "T2" (Some (HPkg "sg/testdata" "testdata")) true (HTypeName (DDefined [] (HBasic "int"))));
  (144, HObj "F1" (Some (HPkg "sg/testdata" "testdata")) false (HFunc (Some (HNamed (HName (Some (HPkg "sg/testdata" "testdata")) "T2") [] [])) (HSig [] [] [] false)));
  (145, HObj "F2" (Some (HPkg "sg/testdata" "testdata")) false (HFunc (Some (HNamed (HName (Some (HPkg "sg/testdata" "testdata")) "T2") [] [])) (HSig [] [] [] false)));
  (146, HObj "A1" (Some (HPkg "sg/testdata" "testdata")) true (HTypeName (DAlias [] (HNamed (HName (Some (HPkg "sg/testdata" "testdata")) "T1") [] []))));
  (147, HObj "A12" (Some (HPkg "sg/testdata" "testdata")) true (HTypeName (DAlias [] (HNamed (HName (Some (HPkg "sg/testdata" "testdata")) "A1") [] []))));
  (148, HObj "InterfaceWithNonExportedMethod" (Some (HPkg "sg/testdata" "testdata")) true (HTypeName (DDefined [] (HInterface false [("nonExportedMethod", (HSig [] [] [] false))] []))));
  (149, HObj "InterfaceWithExportedMethod" (Some (HPkg "sg/testdata" "testdata")) true (HTypeName (DDefined [] (HInterface false [("ExportedMethod", (HSig [] [] [] false))] []))));
  (150, HObj "Foo" (Some (HPkg "sg/testdata" "testdata")) true (HTypeName (DDefined [] (HBasic "int"))));
  (151, HObj "nonExportedMethod" (Some (HPkg "sg/testdata" "testdata")) false (HFunc (Some (HNamed (HName (Some (HPkg "sg/testdata" "testdata")) "Foo") [] [])) (HSig [] [] [] false)));
  (152, HObj "ExportedMethod" (Some (HPkg "sg/testdata" "testdata")) false (HFunc (Some (HNamed (HName (Some (HPkg "sg/testdata" "testdata")) "Foo") [] [])) (HSig [] [] [] false)));
  (153, HObj "ScipTestMethod" (Some (HPkg "sg/testdata" "testdata")) false (HFunc (Some (HNamed (HName (Some (HPkg "sg/testdata" "testdata")) "Foo") [] [])) (HSig [] [] [] false)));
  (154, HObj "SharedOne" (Some (HPkg "sg/testdata" "testdata")) true (HTypeName (DDefined [] (HInterface false [("Distinct", (HSig [] [] [] false)); ("Shared", (HSig [] [] [] false))] []))));
  (155, HObj "SharedTwo" (Some (HPkg "sg/testdata" "testdata")) true (HTypeName (DDefined [] (HInterface false [("Shared", (HSig [] [] [] false)); ("Unique", (HSig [] [] [] false))] []))));
  (156, HObj "Between" (Some (HPkg "sg/testdata" "testdata")) true (HTypeName (DDefined [] (HStruct []))));
  (157, HObj "Shared" (Some (HPkg "sg/testdata" "testdata")) false (HFunc (Some (HNamed (HName (Some (HPkg "sg/testdata" "testdata")) "Between") [] [])) (HSig [] [] [] false)));
  (158, HObj "Distinct" (Some (HPkg "sg/testdata" "testdata")) false (HFunc (Some (HNamed (HName (Some (HPkg "sg/testdata" "testdata")) "Between") [] [])) (HSig [] [] [] false)));
  (159, HObj "Unique" (Some (HPkg "sg/testdata" "testdata")) false (HFunc (Some (HNamed (HName (Some (HPkg "sg/testdata" "testdata")) "Between") [] [])) (HSig [] [] [] false)));
  (160, HObj "shouldShow" (Some (HPkg "sg/testdata" "testdata")) true (HFunc None (HSig [] [("shared", (HNamed (HName (Some (HPkg "sg/testdata" "testdata")) "SharedOne") [] []))] [] false)));
  (161, HObj "I3" (Some (HPkg "sg/testdata" "testdata")) true (HTypeName (DDefined [] (HInterface false [("ScipTestMethod", (HSig [] [] [] false))] []))));
  (162, HObj "EmbeddedI3" (Some (HPkg "sg/testdata" "testdata")) true (HTypeName (DDefined [] (HInterface false [("ScipTestMethod", (HSig [] [] [] false))] []))));
  (163, HObj "TClose" (Some (HPkg "sg/testdata" "testdata")) true (HTypeName (DDefined [] (HStruct [("EmbeddedI3", true, "", (HNamed (HName (Some (HPkg "sg/testdata" "testdata")) "EmbeddedI3") [] []))]))));
  (164, HObj "InterfaceWithSingleMethod" (Some (HPkg "sg/testdata" "testdata")) true (HTypeName (DDefined [] (HInterface false [("SingleMethod", (HSig [] [] [("", (HBasic "float64"))] false))] []))));
  (165, HObj "StructWithMethods" (Some (HPkg "sg/testdata" "testdata")) true (HTypeName (DDefined [] (HStruct []))));
  (166, HObj "SingleMethod" (Some (HPkg "sg/testdata" "testdata")) false (HFunc (Some (HNamed (HName (Some (HPkg "sg/testdata" "testdata")) "StructWithMethods") [] [])) (HSig [] [] [("", (HBasic "float64"))] false)));
  (167, HObj "InterfaceWithSingleMethodTwoImplementers" (Some (HPkg "sg/testdata" "testdata")) true (HTypeName (DDefined [] (HInterface false [("SingleMethodTwoImpl", (HSig [] [] [("", (HBasic "float64"))] false))] []))));
  (168, HObj "TwoImplOne" (Some (HPkg "sg/testdata" "testdata")) true (HTypeName (DDefined [] (HStruct []))));
  (169, HObj "SingleMethodTwoImpl" (Some (HPkg "sg/testdata" "testdata")) false (HFunc (Some (HNamed (HName (Some (HPkg "sg/testdata" "testdata")) "TwoImplOne") [] [])) (HSig [] [] [("", (HBasic "float64"))] false)));
  (170, HObj "TwoImplTwo" (Some (HPkg "sg/testdata" "testdata")) true (HTypeName (DDefined [] (HStruct []))));
  (171, HObj "SingleMethodTwoImpl" (Some (HPkg "sg/testdata" "testdata")) false (HFunc (Some (HNamed (HName (Some (HPkg "sg/testdata" "testdata")) "TwoImplTwo") [] [])) (HSig [] [] [("", (HBasic "float64"))] false)));
  (172, HObj "RandomThingThatDoesntMatter" (Some (HPkg "sg/testdata" "testdata")) false (HFunc (Some (HNamed (HName (Some (HPkg "sg/testdata" "testdata")) "TwoImplTwo") [] [])) (HSig [] [] [("", (HBasic "float64"))] false)));
  (174, HObj "implementsWriter" (Some (HPkg "sg/testdata" "testdata")) true (HTypeName (DDefined [] (HStruct []))));
  (175, HObj "Header" (Some (HPkg "sg/testdata" "testdata")) false (HFunc (Some (HNamed (HName (Some (HPkg "sg/testdata" "testdata")) "implementsWriter") [] [])) (HSig [] [] [("", (HNamed (HName (Some (HPkg "net/http" "http")) "Header") [] []))] false)));
  (176, HObj "Write" (Some (HPkg "sg/testdata" "testdata")) false (HFunc (Some (HNamed (HName (Some (HPkg "sg/testdata" "testdata")) "implementsWriter") [] [])) (HSig [] [("", (HSlice (HBasic "byte")))] [("", (HBasic "int")); ("", (HNamed (HName None "error") [] []))] false)));
  (177, HObj "WriteHeader" (Some (HPkg "sg/testdata" "testdata")) false (HFunc (Some (HNamed (HName (Some (HPkg "sg/testdata" "testdata")) "implementsWriter") [] [])) (HSig [] [("statusCode", (HBasic "int"))] [] false)));
  (178, HObj "ShowsInSignature" (Some (HPkg "sg/testdata" "testdata")) true (HFunc None (HSig [] [("respWriter", (HNamed (HName (Some (HPkg "net/http" "http")) "ResponseWriter") [] []))] [] false)));
  (179, HObj "." (Some (HPkg "sg/testdata" "testdata")) false (HPkgName "fmt"));
  (180, HObj "h" (Some (HPkg "sg/testdata" "testdata")) false (HPkgName "net/http"));
  (181, HObj "Example" (Some (HPkg "sg/testdata" "testdata")) true (HFunc None (HSig [] [] [] false)));
  (193, HObj "ParallelizableFunc" (Some (HPkg "sg/testdata" "testdata")) true (HTypeName (DDefined [] (HSig [] [("ctx", (HNamed (HName (Some (HPkg "context" "context")) "Context") [] []))] [("", (HNamed (HName None "error") [] []))] false))));
  (194, HObj "Parallel" (Some (HPkg "sg/testdata" "testdata")) true (HFunc None (HSig [] [("ctx", (HNamed (HName (Some (HPkg "context" "context")) "Context") [] [])); ("fns", (HSlice (HNamed (HName (Some (HPkg "sg/testdata" "testdata")) "ParallelizableFunc") [] [])))] [("", (HNamed (HName None "error") [] []))] true)));
  (196, HObj "SecretBurger" (Some (HPkg "sg/testdata" "testdata")) true (HTypeName (DAlias [] (HNamed (HName (Some (HPkg "sg/testdata/internal/secret" "secret")) "Burger") [] []))));
  (197, HObj "BadBurger" (Some (HPkg "sg/testdata" "testdata")) true (HTypeName (DAlias [] (HStruct [("Field", false, "", (HBasic "string"))]))));
  (198, HObj "Switch" (Some (HPkg "sg/testdata" "testdata")) true (HFunc None (HSig [] [("interfaceValue", (HInterface false [] []))] [("", (HBasic "bool"))] false)));
  (199, HObj "x" (Some (HPkg "sg/testdata" "testdata")) false (HVar true (HBasic "int")));
  (200, HObj "y" (Some (HPkg "sg/testdata" "testdata")) false (HVar true (HBasic "string")));
  (201, HObj "a" (Some (HPkg "sg/testdata" "testdata")) false (HVar true (HStruct [("x", false, "", (HBasic "int")); ("y", false, "", (HBasic "string"))])));
  (202, HObj "b" (Some (HPkg "sg/testdata" "testdata")) false (HVar true (HStruct [("x", false, "", (HBasic "int")); ("y", false, "", (HBasic "string"))])));
  (203, HObj "X" (Some (HPkg "sg/testdata" "testdata")) false (HVar true (HBasic "int")));
  (204, HObj "Y" (Some (HPkg "sg/testdata" "testdata")) false (HVar true (HBasic "string")));
  (205, HObj "c" (Some (HPkg "sg/testdata" "testdata")) false (HVar true (HStruct [("X", false, "", (HBasic "int")); ("Y", false, "", (HBasic "string"))])));
  (206, HObj "Do" (Some (HPkg "sg/testdata" "testdata")) false (HFunc (Some (HNamed (HName (Some (HPkg "sg/testdata" "testdata")) "TestInterface") [] [])) (HSig [] [("ctx", (HNamed (HName (Some (HPkg "context" "context")) "Context") [] [])); ("data", (HBasic "string"))] [("score", (HBasic "int")); ("_", (HNamed (HName None "error") [] []))] false)));
  (207, HObj "ctx" (Some (HPkg "sg/testdata" "testdata")) false (HVar false (HNamed (HName (Some (HPkg "context" "context")) "Context") [] [])));
  (208, HObj "data" (Some (HPkg "sg/testdata" "testdata")) false (HVar false (HBasic "string")));
  (209, HObj "score" (Some (HPkg "sg/testdata" "testdata")) false (HVar false (HBasic "int")));
  (210, HObj "_" (Some (HPkg "sg/testdata" "testdata")) false (HVar false (HNamed (HName None "error") [] [])));
  (211, HObj "SimpleA" (Some (HPkg "sg/testdata" "testdata")) false (HVar true (HBasic "int")));
  (212, HObj "SimpleB" (Some (HPkg "sg/testdata" "testdata")) false (HVar true (HBasic "int")));
  (213, HObj "SimpleC" (Some (HPkg "sg/testdata" "testdata")) false (HVar true (HBasic "int")));
  (214, HObj "FieldWithTag" (Some (HPkg "sg/testdata" "testdata")) false (HVar true (HBasic "string")));
  (215, HObj "NestedA" (Some (HPkg "sg/testdata" "testdata")) false (HVar true (HBasic "string")));
  (216, HObj "NestedB" (Some (HPkg "sg/testdata" "testdata")) false (HVar true (HBasic "string")));
  (217, HObj "NestedC" (Some (HPkg "sg/testdata" "testdata")) false (HVar true (HBasic "string")));
  (218, HObj "FieldWithAnonymousType" (Some (HPkg "sg/testdata" "testdata")) false (HVar true (HStruct [("NestedA", false, "", (HBasic "string")); ("NestedB", false, "", (HBasic "string")); ("NestedC", false, "", (HBasic "string"))])));
  (219, HObj "EmptyStructField" (Some (HPkg "sg/testdata" "testdata")) false (HVar true (HStruct [])));
  (220, HObj "ctx" (Some (HPkg "sg/testdata" "testdata")) false (HVar false (HNamed (HName (Some (HPkg "context" "context")) "Context") [] [])));
  (221, HObj "data" (Some (HPkg "sg/testdata" "testdata")) false (HVar false (HBasic "string")));
  (222, HObj "score" (Some (HPkg "sg/testdata" "testdata")) false (HVar false (HBasic "int")));
  (223, HObj "err" (Some (HPkg "sg/testdata" "testdata")) false (HVar false (HNamed (HName None "error") [] [])));
  (224, HObj "ts" (Some (HPkg "sg/testdata" "testdata")) false (HVar false (HPointer (HNamed (HName (Some (HPkg "sg/testdata" "testdata")) "TestStruct") [] []))));
  (225, HObj "Value" (Some (HPkg "sg/testdata" "testdata")) false (HVar true (HBasic "int")));
  (226, HObj "Value" (Some (HPkg "sg/testdata" "testdata")) false (HVar true (HBasic "int")));
  (227, HObj "InnerStruct" (Some (HPkg "sg/testdata" "testdata")) false (HVar true (HNamed (HName (Some (HPkg "sg/testdata" "testdata")) "InnerStruct") [] [])));
  (228, HObj "Handler" (Some (HPkg "sg/testdata" "testdata")) false (HVar true (HNamed (HName (Some (HPkg "net/http" "http")) "Handler") [] [])));
  (229, HObj "Other" (Some (HPkg "sg/testdata" "testdata")) false (HVar true (HBasic "int")));
  (230, HObj "F1" (Some (HPkg "sg/testdata" "testdata")) false (HFunc (Some (HNamed (HName (Some (HPkg "sg/testdata" "testdata")) "I1") [] [])) (HSig [] [] [] false)));
  (231, HObj "F2" (Some (HPkg "sg/testdata" "testdata")) false (HFunc (Some (HNamed (HName (Some (HPkg "sg/testdata" "testdata")) "I2") [] [])) (HSig [] [] [] false)));
  (232, HObj "r" (Some (HPkg "sg/testdata" "testdata")) false (HVar false (HNamed (HName (Some (HPkg "sg/testdata" "testdata")) "T1") [] [])));
  (233, HObj "r" (Some (HPkg "sg/testdata" "testdata")) false (HVar false (HNamed (HName (Some (HPkg "sg/testdata" "testdata")) "T2") [] [])));
  (234, HObj "r" (Some (HPkg "sg/testdata" "testdata")) false (HVar false (HNamed (HName (Some (HPkg "sg/testdata" "testdata")) "T2") [] [])));
  (235, HObj "nonExportedMethod" (Some (HPkg "sg/testdata" "testdata")) false (HFunc (Some (HNamed (HName (Some (HPkg "sg/testdata" "testdata")) "InterfaceWithNonExportedMethod") [] [])) (HSig [] [] [] false)));
  (236, HObj "ExportedMethod" (Some (HPkg "sg/testdata" "testdata")) false (HFunc (Some (HNamed (HName (Some (HPkg "sg/testdata" "testdata")) "InterfaceWithExportedMethod") [] [])) (HSig [] [] [] false)));
  (237, HObj "r" (Some (HPkg "sg/testdata" "testdata")) false (HVar false (HNamed (HName (Some (HPkg "sg/testdata" "testdata")) "Foo") [] [])));
  (238, HObj "r" (Some (HPkg "sg/testdata" "testdata")) false (HVar false (HNamed (HName (Some (HPkg "sg/testdata" "testdata")) "Foo") [] [])));
  (239, HObj "r" (Some (HPkg "sg/testdata" "testdata")) false (HVar false (HNamed (HName (Some (HPkg "sg/testdata" "testdata")) "Foo") [] [])));
  (240, HObj "Shared" (Some (HPkg "sg/testdata" "testdata")) false (HFunc (Some (HNamed (HName (Some (HPkg "sg/testdata" "testdata")) "SharedOne") [] [])) (HSig [] [] [] false)));
  (241, HObj "Distinct" (Some (HPkg "sg/testdata" "testdata")) false (HFunc (Some (HNamed (HName (Some (HPkg "sg/testdata" "testdata")) "SharedOne") [] [])) (HSig [] [] [] false)));
  (242, HObj "Shared" (Some (HPkg "sg/testdata" "testdata")) false (HFunc (Some (HNamed (HName (Some (HPkg "sg/testdata" "testdata")) "SharedTwo") [] [])) (HSig [] [] [] false)));
  (243, HObj "Unique" (Some (HPkg "sg/testdata" "testdata")) false (HFunc (Some (HNamed (HName (Some (HPkg "sg/testdata" "testdata")) "SharedTwo") [] [])) (HSig [] [] [] false)));
  (244, HObj "shared" (Some (HPkg "sg/testdata" "testdata")) false (HVar false (HNamed (HName (Some (HPkg "sg/testdata" "testdata")) "SharedOne") [] [])));
  (245, HObj "ScipTestMethod" (Some (HPkg "sg/testdata" "testdata")) false (HFunc (Some (HNamed (HName (Some (HPkg "sg/testdata" "testdata")) "I3") [] [])) (HSig [] [] [] false)));
  (246, HObj "ScipTestMethod" (Some (HPkg "sg/testdata" "testdata")) false (HFunc (Some (HNamed (HName (Some (HPkg "sg/testdata" "testdata")) "EmbeddedI3") [] [])) (HSig [] [] [] false)));
  (247, HObj "EmbeddedI3" (Some (HPkg "sg/testdata" "testdata")) false (HVar true (HNamed (HName (Some (HPkg "sg/testdata" "testdata")) "EmbeddedI3") [] [])));
  (248, HObj "SingleMethod" (Some (HPkg "sg/testdata" "testdata")) false (HFunc (Some (HNamed (HName (Some (HPkg "sg/testdata" "testdata")) "InterfaceWithSingleMethod") [] [])) (HSig [] [] [("", (HBasic "float64"))] false)));
  (251, HObj "SingleMethodTwoImpl" (Some (HPkg "sg/testdata" "testdata")) false (HFunc (Some (HNamed (HName (Some (HPkg "sg/testdata" "testdata")) "InterfaceWithSingleMethodTwoImplementers") [] [])) (HSig [] [] [("", (HBasic "float64"))] false)));
  (260, HObj "statusCode" (Some (HPkg "sg/testdata" "testdata")) false (HVar false (HBasic "int")));
  (261, HObj "respWriter" (Some (HPkg "sg/testdata" "testdata")) false (HVar false (HNamed (HName (Some (HPkg "net/http" "http")) "ResponseWriter") [] [])));
  (262, HObj "ctx" (Some (HPkg "sg/testdata" "testdata")) false (HVar false (HNamed (HName (Some (HPkg "context" "context")) "Context") [] [])));
  (264, HObj "ctx" (Some (HPkg "sg/testdata" "testdata")) false (HVar false (HNamed (HName (Some (HPkg "context" "context")) "Context") [] [])));
  (265, HObj "fns" (Some (HPkg "sg/testdata" "testdata")) false (HVar false (HSlice (HNamed (HName (Some (HPkg "sg/testdata" "testdata")) "ParallelizableFunc") [] []))));
  (267, HObj "Field" (Some (HPkg "sg/testdata" "testdata")) false (HVar true (HBasic "string")));
  (268, HObj "interfaceValue" (Some (HPkg "sg/testdata" "testdata")) false (HVar false (HInterface false [] [])));
  (270, HObj "x" (Some (HPkg "sg/testdata" "testdata")) false (HVar true (HBasic "int")));
  (271, HObj "y" (Some (HPkg "sg/testdata" "testdata")) false (HVar true (HBasic "string")));
  (272, HObj "d" (Some (HPkg "sg/testdata" "testdata")) false (HVar false (HStruct [("x", false, "", (HBasic "int")); ("y", false, "", (HBasic "string"))])));
  (274, HObj "x" (Some (HPkg "sg/testdata" "testdata")) false (HVar true (HBasic "int")));
  (275, HObj "y" (Some (HPkg "sg/testdata" "testdata")) false (HVar true (HBasic "string")));
  (273, HObj "e" (Some (HPkg "sg/testdata" "testdata")) false (HVar false (HStruct [("x", false, "", (HBasic "int")); ("y", false, "", (HBasic "string"))])));
  (276, HObj "f" (Some (HPkg "sg/testdata" "testdata")) false (HVar false (HNamed (HName (Some (HPkg "sg/testdata" "testdata")) "TypeContainingAnonymousStructs") [] [])));
  (277, HObj "wg" (Some (HPkg "sg/testdata" "testdata")) false (HVar false (HNamed (HName (Some (HPkg "sync" "sync")) "WaitGroup") [] [])));
  (278, HObj "errs" (Some (HPkg "sg/testdata" "testdata")) false (HVar false (HChan 0 (HNamed (HName None "error") [] []))));
  (279, HObj "_" (Some (HPkg "sg/testdata" "testdata")) false (HVar false (HBasic "int")));
  (280, HObj "fn" (Some (HPkg "sg/testdata" "testdata")) false (HVar false (HNamed (HName (Some (HPkg "sg/testdata" "testdata")) "ParallelizableFunc") [] [])));
  (281, HObj "fn" (Some (HPkg "sg/testdata" "testdata")) false (HVar false (HNamed (HName (Some (HPkg "sg/testdata" "testdata")) "ParallelizableFunc") [] [])));
  (282, HObj "err" (Some (HPkg "sg/testdata" "testdata")) false (HVar false (HNamed (HName None "error") [] [])));
  (283, HObj "concreteValue" (Some (HPkg "sg/testdata" "testdata")) false (HVar false (HBasic "int")));
  (284, HObj "concreteValue" (Some (HPkg "sg/testdata" "testdata")) false (HVar false (HBasic "bool")));
  (285, HObj "concreteValue" (Some (HPkg "sg/testdata" "testdata")) false (HVar false (HInterface false [] [])));
  (286, HObj "User" (Some (HPkg "sg/testdata/cmd/minimal_main" "main")) true (HTypeName (DDefined [] (HStruct [("Id", false, "", (HBasic "string")); ("Name", false, "", (HBasic "string"))]))));
  (287, HObj "UserResource" (Some (HPkg "sg/testdata/cmd/minimal_main" "main")) true (HTypeName (DDefined [] (HStruct []))));
  (288, HObj "main" (Some (HPkg "sg/testdata/cmd/minimal_main" "main")) true (HFunc None (HSig [] [] [] false)));
  (289, HObj "Id" (Some (HPkg "sg/testdata/cmd/minimal_main" "main")) false (HVar true (HBasic "string")));
  (290, HObj "Name" (Some (HPkg "sg/testdata/cmd/minimal_main" "main")) false (HVar true (HBasic "string")));
  (303, HObj "ErrNotImplemented" (Some (HPkg "sg/testdata/conflicting_test_symbols" "osl")) true (HVar false (HNamed (HName None "error") [] [])));
  (304, HObj "newKey" (Some (HPkg "sg/testdata/conflicting_test_symbols" "osl")) true (HFunc None (HSig [] [("t", (HPointer (HNamed (HName (Some (HPkg "testing" "testing")) "T") [] [])))] [("", (HBasic "string")); ("", (HNamed (HName None "error") [] []))] false)));
  (305, HObj "verifySandbox" (Some (HPkg "sg/testdata/conflicting_test_symbols" "osl")) true (HFunc None (HSig [] [("t", (HPointer (HNamed (HName (Some (HPkg "testing" "testing")) "T") [] []))); ("s", (HBasic "string"))] [] false)));
  (306, HObj "t" (Some (HPkg "sg/testdata/conflicting_test_symbols" "osl")) false (HVar false (HPointer (HNamed (HName (Some (HPkg "testing" "testing")) "T") [] []))));
  (309, HObj "t" (Some (HPkg "sg/testdata/conflicting_test_symbols" "osl")) false (HVar false (HPointer (HNamed (HName (Some (HPkg "testing" "testing")) "T") [] []))));
  (310, HObj "s" (Some (HPkg "sg/testdata/conflicting_test_symbols" "osl")) false (HVar false (HBasic "string")));
  (311, HObj "importMeta" (Some (HPkg "sg/testdata/duplicate_path_id" "gosrc")) true (HTypeName (DDefined [] (HStruct []))));
  (312, HObj "sourceMeta" (Some (HPkg "sg/testdata/duplicate_path_id" "gosrc")) true (HTypeName (DDefined [] (HStruct []))));
  (313, HObj "fetchMeta" (Some (HPkg "sg/testdata/duplicate_path_id" "gosrc")) true (HFunc None (HSig [] [] [("", (HBasic "string")); ("", (HPointer (HNamed (HName (Some (HPkg "sg/testdata/duplicate_path_id" "gosrc")) "importMeta") [] []))); ("", (HPointer (HNamed (HName (Some (HPkg "sg/testdata/duplicate_path_id" "gosrc")) "sourceMeta") [] [])))] false)));
  (314, HObj "init" (Some (HPkg "sg/testdata/duplicate_path_id" "gosrc")) false (HFunc None (HSig [] [] [] false)));
  (315, HObj "init" (Some (HPkg "sg/testdata/duplicate_path_id" "gosrc")) false (HFunc None (HSig [] [] [] false)));
  (316, HObj "init" (Some (HPkg "sg/testdata/duplicate_path_id" "gosrc")) false (HFunc None (HSig [] [] [] false)));
  (317, HObj "init" (Some (HPkg "sg/testdata/duplicate_path_id" "gosrc")) false (HFunc None (HSig [] [] [] false)))].
Definition unders : list (nat * ty) := [(47, (TInterface [("Write", (TSig [(TSlice (TBasic BUint8 true))] [(TBasic BInt false); (TNamed (TName 21 None "error") [])] false))] ""));
  (21, (TInterface [("Error", (TSig [] [(TBasic BString false)] false))] ""));
  (53, (TInterface [("String", (TSig [] [(TBasic BString false)] false))] ""));
  (81, (TInterface [("Done", (TSig [] [(TChan 2 (TStruct []))] false)); ("Err", (TSig [] [(TNamed (TName 21 None "error") [])] false)); ("Value", (TSig [(TAlias (TName 20 None "any") (TInterface [] ""))] [(TAlias (TName 20 None "any") (TInterface [] ""))] false))] ""));
  (93, (TStruct [(FHdr 94 "Field" (Some "sg/testdata/internal/secret") false "", (TBasic BInt false))]));
  (116, (TStruct [(FHdr 133 "Jar" (Some "net/http") false "", (TBasic BInt false))]));
  (115, (TInterface [("ServeHTTP", (TSig [(TNamed (TName 113 (Some "net/http") "ResponseWriter") []); (TPointer (TNamed (TName 114 (Some "net/http") "Request") []))] [] false))] ""));
  (113, (TInterface [("Header", (TSig [] [(TNamed (TName 112 (Some "net/http") "Header") [])] false)); ("Write", (TSig [(TSlice (TBasic BUint8 true))] [(TBasic BInt false); (TNamed (TName 21 None "error") [])] false)); ("WriteHeader", (TSig [(TBasic BInt false)] [] false))] ""));
  (112, (TMap (TBasic BString false) (TSlice (TBasic BString false))));
  (114, (TStruct [(FHdr 128 "Method" (Some "net/http") false "", (TBasic BString false)); (FHdr 129 "Body" (Some "net/http") false "", (TNamed (TName 47 (Some "io") "Writer") []))]));
  (183, (TStruct [(FHdr 187 "n" (Some "sync") false "", (TBasic BInt false))]));
  (141, (TBasic BInt false));
  (156, (TStruct []));
  (162, (TInterface [("ScipTestMethod", (TSig [] [] false))] ""));
  (150, (TBasic BInt false));
  (138, (TInterface [] ""));
  (139, (TInterface [("F1", (TSig [] [] false))] ""));
  (140, (TInterface [("F2", (TSig [] [] false))] ""));
  (161, (TInterface [("ScipTestMethod", (TSig [] [] false))] ""));
  (110, (TStruct []));
  (149, (TInterface [("ExportedMethod", (TSig [] [] false))] ""));
  (148, (TInterface [("sg/testdata.nonExportedMethod", (TSig [] [] false))] ""));
  (164, (TInterface [("SingleMethod", (TSig [] [(TBasic BFloat64 false)] false))] ""));
  (167, (TInterface [("SingleMethodTwoImpl", (TSig [] [(TBasic BFloat64 false)] false))] ""));
  (137, (TStruct [(FHdr 228 "Handler" (Some "sg/testdata") true "", (TNamed (TName 115 (Some "net/http") "Handler") [])); (FHdr 229 "Other" (Some "sg/testdata") false "", (TBasic BInt false))]));
  (193, (TSig [(TNamed (TName 81 (Some "context") "Context") [])] [(TNamed (TName 21 None "error") [])] false));
  (154, (TInterface [("Distinct", (TSig [] [] false)); ("Shared", (TSig [] [] false))] ""));
  (155, (TInterface [("Shared", (TSig [] [] false)); ("Unique", (TSig [] [] false))] ""));
  (109, (TStruct [(FHdr 227 "InnerStruct" (Some "sg/testdata") true "", (TNamed (TName 110 (Some "sg/testdata") "InnerStruct") []))]));
  (104, (TBasic BString false));
  (107, (TStruct [(FHdr 225 "Value" (Some "sg/testdata") false "key:"",range=[:}""", (TBasic BInt false))]));
  (165, (TStruct []));
  (143, (TBasic BInt false));
  (163, (TStruct [(FHdr 247 "EmbeddedI3" (Some "sg/testdata") true "", (TNamed (TName 162 (Some "sg/testdata") "EmbeddedI3") []))]));
  (98, (TStruct []));
  (96, (TInterface [("Do", (TSig [(TNamed (TName 81 (Some "context") "Context") []); (TBasic BString false)] [(TBasic BInt false); (TNamed (TName 21 None "error") [])] false))] ""));
  (97, (TStruct [(FHdr 211 "SimpleA" (Some "sg/testdata") false "", (TBasic BInt false)); (FHdr 212 "SimpleB" (Some "sg/testdata") false "", (TBasic BInt false)); (FHdr 213 "SimpleC" (Some "sg/testdata") false "", (TBasic BInt false)); (FHdr 214 "FieldWithTag" (Some "sg/testdata") false "json:""tag""", (TBasic BString false)); (FHdr 218 "FieldWithAnonymousType" (Some "sg/testdata") false "", (TStruct [(FHdr 215 "NestedA" (Some "sg/testdata") false "", (TBasic BString false)); (FHdr 216 "NestedB" (Some "sg/testdata") false "", (TBasic BString false)); (FHdr 217 "NestedC" (Some "sg/testdata") false "", (TBasic BString false))])); (FHdr 219 "EmptyStructField" (Some "sg/testdata") false "", (TStruct []))]));
  (168, (TStruct []));
  (170, (TStruct []));
  (79, (TStruct [(FHdr 201 "a" (Some "sg/testdata") false "", (TStruct [(FHdr 199 "x" (Some "sg/testdata") false "", (TBasic BInt false)); (FHdr 200 "y" (Some "sg/testdata") false "", (TBasic BString false))])); (FHdr 202 "b" (Some "sg/testdata") false "", (TStruct [(FHdr 199 "x" (Some "sg/testdata") false "", (TBasic BInt false)); (FHdr 200 "y" (Some "sg/testdata") false "", (TBasic BString false))])); (FHdr 205 "c" (Some "sg/testdata") false "", (TStruct [(FHdr 203 "X" (Some "sg/testdata") false "", (TBasic BInt false)); (FHdr 204 "Y" (Some "sg/testdata") false "", (TBasic BString false))]))]));
  (174, (TStruct []));
  (286, (TStruct [(FHdr 289 "Id" (Some "sg/testdata/cmd/minimal_main") false "", (TBasic BString false)); (FHdr 290 "Name" (Some "sg/testdata/cmd/minimal_main") false "", (TBasic BString false))]));
  (287, (TStruct []));
  (297, (TStruct [(FHdr 301 "common" (Some "testing") true "", (TNamed (TName 295 (Some "testing") "common") []))]));
  (295, (TStruct [(FHdr 298 "failed" (Some "testing") false "", (TBasic BBool false))]));
  (311, (TStruct []));
  (312, (TStruct []))].
Definition msets : list (nat * (list obj * list obj)) := [(47, ([o48], []));
  (53, ([o59], []));
  (81, ([o83; o85; o87], []));
  (93, ([], []));
  (116, ([], []));
  (115, ([o130], []));
  (112, ([], []));
  (114, ([], []));
  (113, ([o120; o122; o126], []));
  (183, ([], [o184; o185; o186]));
  (79, ([], []));
  (96, ([o206], []));
  (97, ([], [o106]));
  (98, ([], []));
  (104, ([], []));
  (107, ([], []));
  (109, ([], []));
  (110, ([], []));
  (137, ([o130], [o130]));
  (138, ([], []));
  (139, ([o230], []));
  (140, ([o231], []));
  (141, ([o142], [o142]));
  (143, ([o144; o145], [o144; o145]));
  (148, ([o235], []));
  (149, ([o236], []));
  (150, ([o152; o153; o151], [o152; o153; o151]));
  (154, ([o241; o240], []));
  (155, ([o242; o243], []));
  (156, ([o158; o157; o159], [o158; o157; o159]));
  (161, ([o245], []));
  (162, ([o246], []));
  (163, ([o246], [o246]));
  (164, ([o248], []));
  (165, ([o166], [o166]));
  (167, ([o251], []));
  (168, ([o169], [o169]));
  (170, ([o172; o171], [o172; o171]));
  (174, ([o175; o176; o177], [o175; o176; o177]));
  (193, ([], []));
  (286, ([], []));
  (287, ([], []));
  (297, ([], [o296]));
  (295, ([], [o296]));
  (311, ([], []));
  (312, ([], []));
  (21, ([o22], []))].
Definition digests : list (string * string) := [("struct{Field int}", "872d8f07bc242f8b");
  ("struct{x int; y string}", "c0a8952b3a214f68");
  ("struct{X int; Y string}", "2f238678626c0da1");
  ("struct{a struct{x int; y string}; b struct{x int; y string}; c struct{X int; Y string}}", "785512ce96754a8a");
  ("interface{Do(ctx context.Context, data string) (score int, _ error)}", "2e41fbfc73d5a1e3");
  ("struct{NestedA string; NestedB string; NestedC string}", "2bed88e490dc48af");
  ("struct{}", "0d0ad1bdf1affd9c");
  ("struct{SimpleA int; SimpleB int; SimpleC int; FieldWithTag string ""json:\""tag\""""; FieldWithAnonymousType struct{NestedA string; NestedB string; NestedC string}; EmptyStructField struct{}}", "3caba7823b4209dd");
  ("struct{Value int ""key:\"",range=[:}\""""}", "f0042af123e7a03d");
  ("struct{Value int}", "b3f4d3cd95ce2480");
  ("struct{sg/testdata.InnerStruct}", "c894b045bcb0c418");
  ("struct{net/http.Handler; Other int}", "178590e026ae8c2c");
  ("interface{}", "add049cfe3c2b217");
  ("interface{F1()}", "998976d45af94c04");
  ("interface{F2()}", "0ba0339de7ff3f84");
  ("interface{nonExportedMethod()}", "f68f521a30843b1a");
  ("interface{ExportedMethod()}", "26737e66856e91a0");
  ("interface{Distinct(); Shared()}", "6464a60f3d56f967");
  ("interface{Shared(); Unique()}", "fb748c87965060ee");
  ("interface{ScipTestMethod()}", "71dc6f20c5f7e6f5");
  ("struct{sg/testdata.EmbeddedI3}", "41194121dcf620a1");
  ("interface{SingleMethod() float64}", "a2806250e22b9661");
  ("interface{SingleMethodTwoImpl() float64}", "da1adf4024209b84");
  ("struct{Field string}", "5d768eee2a4015fd");
  ("struct{Id string; Name string}", "64f7fc25fdc1a91f")].
Definition formatted : list (string * string) := [("package p

type _ struct{Field int}
", "package p

type _ struct{ Field int }
");
  ("package p

type _ struct{a struct{x int; y string}; b struct{x int; y string}; c struct{X int; Y string}}
", "package p

type _ struct {
	a struct {
		x int
		y string
	}
	b struct {
		x int
		y string
	}
	c struct {
		X int
		Y string
	}
}
");
  ("package p

type _ interface{Do(ctx context.Context, data string) (score int, _ error)}
", "package p

type _ interface {
	Do(ctx context.Context, data string) (score int, _ error)
}
");
  ("package p

type _ struct{SimpleA int; SimpleB int; SimpleC int; FieldWithTag string ""json:\""tag\""""; FieldWithAnonymousType struct{NestedA string; NestedB string; NestedC string}; EmptyStructField struct{}}
", "package p

type _ struct {
	SimpleA                int
	SimpleB                int
	SimpleC                int
	FieldWithTag           string ""json:\""tag\""""
	FieldWithAnonymousType struct {
		NestedA string
		NestedB string
		NestedC string
	}
	EmptyStructField struct{}
}
");
  ("package p

type _ struct{}
", "package p

type _ struct{}
");
  ("package p

type _ struct{Value int ""key:\"",range=[:}\""""}
", "package p

type _ struct {
	Value int ""key:\"",range=[:}\""""
}
");
  ("package p

type _ struct{Value int}
", "package p

type _ struct{ Value int }
");
  ("package p

type _ struct{InnerStruct}
", "package p

type _ struct{ InnerStruct }
");
  ("package p

type _ struct{http.Handler; Other int}
", "package p

type _ struct {
	http.Handler
	Other int
}
");
  ("package p

type _ interface{}
", "package p

type _ interface{}
");
  ("package p

type _ interface{F1()}
", "package p

type _ interface{ F1() }
");
  ("package p

type _ interface{F2()}
", "package p

type _ interface{ F2() }
");
  ("package p

type _ interface{nonExportedMethod()}
", "package p

type _ interface{ nonExportedMethod() }
");
  ("package p

type _ interface{ExportedMethod()}
", "package p

type _ interface{ ExportedMethod() }
");
  ("package p

type _ interface{Distinct(); Shared()}
", "package p

type _ interface {
	Distinct()
	Shared()
}
");
  ("package p

type _ interface{Shared(); Unique()}
", "package p

type _ interface {
	Shared()
	Unique()
}
");
  ("package p

type _ interface{ScipTestMethod()}
", "package p

type _ interface{ ScipTestMethod() }
");
  ("package p

type _ struct{EmbeddedI3}
", "package p

type _ struct{ EmbeddedI3 }
");
  ("package p

type _ interface{SingleMethod() float64}
", "package p

type _ interface{ SingleMethod() float64 }
");
  ("package p

type _ interface{SingleMethodTwoImpl() float64}
", "package p

type _ interface{ SingleMethodTwoImpl() float64 }
");
  ("package p

type _ struct{Field string}
", "package p

type _ struct{ Field string }
");
  ("package p

type _ struct{Id string; Name string}
", "package p

type _ struct {
	Id   string
	Name string
}
")].
Definition sources : list src := [Src "/repo/internal/testdata/snapshots/input/testdata/anonymous_structs.go" 1 "package testdata

import ""fmt""

type TypeContainingAnonymousStructs struct {
	a, b struct {
		x int
		y string
	}
	c struct {
		X int
		Y string
	}
}

func funcContainingAnonymousStructs() {
	d := struct {
		x int
		y string
	}{
		x: 1,
		y: ""one"",
	}

	var e struct {
		x int
		y string
	}

	e.x = 2
	e.y = ""two""

	var f TypeContainingAnonymousStructs
	f.a.x = 3
	f.a.y = ""three""
	f.b.x = 4
	f.b.y = ""four""
	f.c.X = 5
	f.c.Y = ""five""

	fmt.Printf(""> %s, %s\n"", d.x, d.y)
	fmt.Printf(""> %s, %s\n"", e.x, e.y)

	fmt.Printf(""> %s, %s\n"", f.a.x, f.a.y)
	fmt.Printf(""> %s, %s\n"", f.b.x, f.b.y)
	fmt.Printf(""> %s, %s\n"", f.c.X, f.c.Y)
}
" [];
  Src "/repo/internal/testdata/snapshots/input/testdata/data.go" 633 "package testdata

import (
	""context""

	""sg/testdata/internal/secret""
)

// TestInterface is an interface used for testing.
type TestInterface interface {
	// Do does a test thing.
	Do(ctx context.Context, data string) (score int, _ error)
}

type (
	// TestStruct is a struct used for testing.
	TestStruct struct {
		// SimpleA docs
		SimpleA int
		// SimpleB docs
		SimpleB int
		// SimpleC docs
		SimpleC int

		FieldWithTag           string `json:""tag""`
		FieldWithAnonymousType struct {
			NestedA string
			NestedB string
			// NestedC docs
			NestedC string
		}

		EmptyStructField struct{}
	}

	TestEmptyStruct struct{}
)

// Score is just a hardcoded number.
const Score = uint64(42)
const secretScore = secret.SecretScore

const SomeString = ""foobar""
const LongString = ""Lorem ipsum dolor sit amet, consectetur adipiscing elit. Sed tincidunt viverra aliquam. Phasellus finibus, arcu eu commodo porta, dui quam dictum ante, nec porta enim leo quis felis. Pellentesque habitant morbi tristique senectus et netus et malesuada fames ac turpis egestas. Curabitur luctus orci tortor, non condimentum arcu bibendum ut. Proin sit amet vulputate lorem, ut egestas arcu. Curabitur quis sagittis mi. Aenean elit sem, imperdiet ut risus eget, varius varius erat.\nNullam lobortis tortor sed sodales consectetur. Aenean condimentum vehicula elit, eget interdum ante finibus nec. Mauris mollis, nulla eu vehicula rhoncus, eros lectus viverra tellus, ac hendrerit quam massa et felis. Nunc vestibulum diam a facilisis sollicitudin. Aenean nec varius metus. Sed nec diam nibh. Ut erat erat, suscipit et ante eget, tincidunt condimentum orci. Aenean nec facilisis augue, ac sodales ex. Nulla dictum hendrerit tempus. Aliquam fringilla tortor in massa molestie, quis bibendum nulla ullamcorper. Suspendisse congue laoreet elit, vitae consectetur orci facilisis non. Aliquam tempus ultricies sapien, rhoncus tincidunt nisl tincidunt eget. Aliquam nisi ante, rutrum eget viverra imperdiet, congue ut nunc. Donec mollis sed tellus vel placerat. Sed mi ex, fringilla a fermentum a, tincidunt eget lectus.\nPellentesque lacus nibh, accumsan eget feugiat nec, gravida eget urna. Donec quam velit, imperdiet in consequat eget, ultricies eget nunc. Curabitur interdum vel sem et euismod. Donec sed vulputate odio, sit amet bibendum tellus. Integer pellentesque nunc eu turpis cursus, vestibulum sodales ipsum posuere. Vestibulum ante ipsum primis in faucibus orci luctus et ultrices posuere cubilia curae; Ut at vestibulum sapien. In hac habitasse platea dictumst. Nullam sed lobortis urna, non bibendum ipsum. Sed in sapien quis purus semper fringilla. Integer ut egestas nulla, eu ornare lectus. Maecenas quis sapien condimentum, dignissim urna quis, hendrerit neque. Donec cursus sit amet metus eu mollis.\nSed scelerisque vitae odio non egestas. Cras hendrerit tortor mauris. Aenean quis imperdiet nulla, a viverra purus. Orci varius natoque penatibus et magnis dis parturient montes, nascetur ridiculus mus. Praesent finibus faucibus orci, sed ultrices justo iaculis ut. Ut libero massa, condimentum at elit non, fringilla iaculis quam. Sed sit amet ipsum placerat, tincidunt sem in, efficitur lacus. Curabitur ligula orci, tempus ut magna eget, sodales tristique odio.\nPellentesque in libero ac risus pretium ultrices. In hac habitasse platea dictumst. Curabitur a quam sed orci tempus luctus. Integer commodo nec odio quis consequat. Aenean vitae dapibus augue, nec dictum lectus. Etiam sit amet leo diam. Duis eu ligula venenatis, fermentum lacus vel, interdum odio. Vivamus sit amet libero vitae elit interdum cursus et eu erat. Cras interdum augue sit amet ex aliquet tempor. Praesent dolor nisl, convallis bibendum mauris a, euismod commodo ante. Phasellus non ipsum condimentum, molestie dolor quis, pretium nisi. Mauris augue urna, fermentum ut lacinia a, efficitur vitae odio. Praesent finibus nisl et dolor luctus faucibus. Donec eget lectus sed mi porttitor placerat ac eu odio.""
const ConstMath = 1 + (2+3)*5

type StringAlias string

const AliasedString StringAlias = ""foobar""

// Doer is similar to the test interface (but not the same).
func (ts *TestStruct) Doer(ctx context.Context, data string) (score int, err error) {
	return Score, nil
}

// StructTagRegression is a struct that caused panic in the wild. Added here to
// support a regression test.
//
// See https://github.com/tal-tech/go-zero/blob/11dd3d75ecceaa3f5772024fb3f26dec1ada8e9c/core/mapping/unmarshaler_test.go#L2272.
type StructTagRegression struct {
	Value int `key:"",range=[:}""`
}

type TestEqualsStruct = struct {
	Value int
}

type ShellStruct struct {
	// Ensure this field comes before the definition
	// so that we grab the correct one in our unit
	// tests.
	InnerStruct
}

type InnerStruct struct{}
" [];
  Src "/repo/internal/testdata/snapshots/input/testdata/external_composite.go" 5417 "package testdata

import ""net/http""

type NestedHandler struct {
	http.Handler
	Other int
}
" [];
  Src "/repo/internal/testdata/snapshots/input/testdata/implementations.go" 5510 "package testdata

type I0 interface{}

type I1 interface {
	F1()
}

type I2 interface {
	F2()
}

type T1 int

func (r T1) F1() {}

type T2 int

func (r T2) F1() {}
func (r T2) F2() {}

type A1 = T1
type A12 = A1

type InterfaceWithNonExportedMethod interface {
	nonExportedMethod()
}

type InterfaceWithExportedMethod interface {
	ExportedMethod()
}

type Foo int

func (r Foo) nonExportedMethod() {}
func (r Foo) ExportedMethod()    {}
func (r Foo) ScipTestMethod()    {}

type SharedOne interface {
	Shared()
	Distinct()
}

type SharedTwo interface {
	Shared()
	Unique()
}

type Between struct{}

func (Between) Shared()   {}
func (Between) Distinct() {}
func (Between) Unique()   {}

func shouldShow(shared SharedOne) {
	shared.Shared()
}
" [];
  Src "/repo/internal/testdata/snapshots/input/testdata/implementations_embedded.go" 6253 "package testdata

type I3 interface {
	ScipTestMethod()
}

type EmbeddedI3 interface {
	ScipTestMethod()
}

type TClose struct {
	EmbeddedI3
}
" [];
  Src "/repo/internal/testdata/snapshots/input/testdata/implementations_methods.go" 6397 "package testdata

type InterfaceWithSingleMethod interface {
	SingleMethod() float64
}

type StructWithMethods struct{}

func (StructWithMethods) SingleMethod() float64 { return 5.0 }

type InterfaceWithSingleMethodTwoImplementers interface {
	SingleMethodTwoImpl() float64
}

type TwoImplOne struct{}

func (TwoImplOne) SingleMethodTwoImpl() float64 { return 5.0 }

type TwoImplTwo struct{}

func (TwoImplTwo) SingleMethodTwoImpl() float64         { return 5.0 }
func (TwoImplTwo) RandomThingThatDoesntMatter() float64 { return 5.0 }
" [];
  Src "/repo/internal/testdata/snapshots/input/testdata/implementations_remote.go" 6933 "package testdata

import ""net/http""

type implementsWriter struct{}

func (implementsWriter) Header() http.Header        { panic(""Just for how"") }
func (implementsWriter) Write([]byte) (int, error)  { panic(""Just for show"") }
func (implementsWriter) WriteHeader(statusCode int) {}

func ShowsInSignature(respWriter http.ResponseWriter) {
	respWriter.WriteHeader(1)
}
" [];
  Src "/repo/internal/testdata/snapshots/input/testdata/named_import.go" 7301 "package testdata

import (
	. ""fmt""
	h ""net/http""
)

func Example() {
	Println(h.CanonicalHeaderKey(""accept-encoding""))
}
" [];
  Src "/repo/internal/testdata/snapshots/input/testdata/parallel.go" 7424 "package testdata

import (
	""context""
	""sync""
)

// ParallelizableFunc is a function that can be called concurrently with other instances
// of this function type.
type ParallelizableFunc func(ctx context.Context) error

// Parallel invokes each of the given parallelizable functions in their own goroutines and
// returns the first error to occur. This method will block until all goroutines have returned.
func Parallel(ctx context.Context, fns ...ParallelizableFunc) error {
	var wg sync.WaitGroup
	errs := make(chan error, len(fns))

	for _, fn := range fns {
		wg.Add(1)

		go func(fn ParallelizableFunc) {
			errs <- fn(ctx)
			wg.Done()
		}(fn)
	}

	wg.Wait()

	for err := range errs {
		if err != nil {
			return err
		}
	}

	return nil
}
" [];
  Src "/repo/internal/testdata/snapshots/input/testdata/typealias.go" 8172 "package testdata

import (
	""sg/testdata/internal/secret""
)

// Type aliased doc
type SecretBurger = secret.Burger

type BadBurger = struct {
	Field string
}
" [];
  Src "/repo/internal/testdata/snapshots/input/testdata/typeswitch.go" 8331 "package testdata

func Switch(interfaceValue interface{}) bool {
	switch concreteValue := interfaceValue.(type) {
	case int:
		return concreteValue*3 > 10
	case bool:
		return !concreteValue
	default:
		return false
	}
}
" [];
  Src "/repo/internal/testdata/snapshots/input/testdata/internal/secret/doc.go" 8553 "// secret is a package that holds secrets.
package secret
" [];
  Src "/repo/internal/testdata/snapshots/input/testdata/internal/secret/secret.go" 8612 "package secret

// SecretScore is like score but _secret_.
const SecretScore = uint64(43)

// Original doc
type Burger struct {
	Field int
}
" [];
  Src "/repo/internal/testdata/snapshots/input/testdata/cmd/minimal_main/minimal_main.go" 8754 "package main

type User struct {
	Id, Name string
}

type UserResource struct{}

func main() {}
" [];
  Src "/repo/internal/testdata/snapshots/input/testdata/conflicting_test_symbols/sandbox_unsupported_test.go" 8851 "//go:build !linux && !windows && !freebsd
// +build !linux,!windows,!freebsd

package osl

import (
	""errors""
	""testing""
)

var ErrNotImplemented = errors.New(""not implemented"")

func newKey(t *testing.T) (string, error) {
	return """", ErrNotImplemented
}

func verifySandbox(t *testing.T, s string) {
	return
}
" [];
  Src "/repo/internal/testdata/snapshots/input/testdata/duplicate_path_id/main.go" 9163 "package gosrc

type importMeta struct{}

type sourceMeta struct{}

func fetchMeta() (string, *importMeta, *sourceMeta) {
	panic(""hmm"")
}

func init() {}
func init() {}
func init() {}
" [];
  Src "/repo/internal/testdata/snapshots/input/testdata/duplicate_path_id/two.go" 9347 "package gosrc

func init() {}
" []].
Definition gomods : list (string * string) := [].
Definition p1 : gpkg * option raw := (GPkg 1 "io" "io" None [] [] (Some k0) None, None).
Definition p2 : gpkg * option raw := (GPkg 2 "fmt" "fmt" None [("io", 1)] [] (Some k1) None, None).
Definition p3 : gpkg * option raw := (GPkg 3 "context" "context" None [] [] (Some k2) None, None).
Definition p4 : gpkg * option raw := (GPkg 4 "sg/testdata/internal/secret" "secret" (Some (GMod "sg/testdata" "" "/repo/internal/testdata/snapshots/input/testdata" "/repo/internal/testdata/snapshots/input/testdata/go.mod" None)) [] [f4_0; f4_1] (Some k3) None, (Some (Raw defs4 uses4 pkgnames4 cases4 canon4))).
Definition p5 : gpkg * option raw := (GPkg 5 "net/http" "http" None [("io", 1)] [] (Some k4) None, None).
Definition p6 : gpkg * option raw := (GPkg 6 "sync" "sync" None [] [] (Some k5) None, None).
Definition p7 : gpkg * option raw := (GPkg 7 "sg/testdata" "testdata" (Some (GMod "sg/testdata" "" "/repo/internal/testdata/snapshots/input/testdata" "/repo/internal/testdata/snapshots/input/testdata/go.mod" None)) [("fmt", 2); ("context", 3); ("sg/testdata/internal/secret", 4); ("net/http", 5); ("sync", 6)] [f7_0; f7_1; f7_2; f7_3; f7_4; f7_5; f7_6; f7_7; f7_8; f7_9; f7_10] (Some k6) None, (Some (Raw defs7 uses7 pkgnames7 cases7 canon7))).
Definition p8 : gpkg * option raw := (GPkg 8 "sg/testdata/cmd/minimal_main" "main" (Some (GMod "sg/testdata" "" "/repo/internal/testdata/snapshots/input/testdata" "/repo/internal/testdata/snapshots/input/testdata/go.mod" None)) [] [f8_0] (Some k7) None, (Some (Raw defs8 uses8 pkgnames8 cases8 canon8))).
Definition p9 : gpkg * option raw := (GPkg 9 "errors" "errors" None [] [] (Some k8) None, None).
Definition p10 : gpkg * option raw := (GPkg 10 "testing" "testing" None [] [] (Some k9) None, None).
Definition p11 : gpkg * option raw := (GPkg 11 "sg/testdata/conflicting_test_symbols" "osl" (Some (GMod "sg/testdata" "" "/repo/internal/testdata/snapshots/input/testdata" "/repo/internal/testdata/snapshots/input/testdata/go.mod" None)) [("errors", 9); ("testing", 10)] [f11_0] (Some k10) None, (Some (Raw defs11 uses11 pkgnames11 cases11 canon11))).
Definition p12 : gpkg * option raw := (GPkg 12 "sg/testdata/duplicate_path_id" "gosrc" (Some (GMod "sg/testdata" "" "/repo/internal/testdata/snapshots/input/testdata" "/repo/internal/testdata/snapshots/input/testdata/go.mod" None)) [] [f12_0; f12_1] (Some k11) None, (Some (Raw defs12 uses12 pkgnames12 cases12 canon12))).
Definition packages : list (gpkg * option raw) := [p1; p2; p3; p4; p5; p6; p7; p8; p9; p10; p11; p12].
Definition roots : list nat := [4; 7; 8; 11; 12].
Definition scopes : list (nat * list obj) := [(1, [o47]); (2, [o58; o54; o56; o55; o57; o53]); (3, [o82; o81]); (5, [o119; o116; o117; o115; o112; o114; o113; o118]); (6, [o183]); (9, [o291]); (10, [o297; o295])].
Definition levels : list nat := [93; 79; 96; 97; 98; 104; 107; 109; 110; 137; 138; 139; 140; 141; 143; 148; 149; 150; 154; 155; 156; 161; 162; 163; 164; 165; 167; 168; 170; 174; 193; 286; 287; 311; 312].
Definition input : input := Input "/repo/internal/testdata/snapshots/input/testdata" "sg/testdata" false sources packages roots gomods digests formatted hobjs unders msets scopes levels.
Definition golden : list (string * string) := [("anonymous_structs.go", "  package testdata
//        ^^^^^^^^ definition 0.1.test `sg/testdata`/
//                 kind Package
//                 display_name testdata
//                 signature_documentation
//                 > package testdata
  
  import ""fmt""
//        ^^^ reference github.com/golang/go/src go1.22 fmt/
  
  type TypeContainingAnonymousStructs struct {
//     ^^^^^^^^^^^^^^^^^^^^^^^^^^^^^^ definition 0.1.test `sg/testdata`/TypeContainingAnonymousStructs#
//                                    kind Struct
//                                    display_name TypeContainingAnonymousStructs
//                                    signature_documentation
//                                    > type TypeContainingAnonymousStructs struct {
//                                    >     a struct {
//                                    >         x int
//                                    >         y string
//                                    >     }
//                                    >     b struct {
//                                    >         x int
//                                    >         y string
//                                    >     }
//                                    >     c struct {
//                                    >         X int
//                                    >         Y string
//                                    >     }
//                                    > }
   a, b struct {
// ^ definition 0.1.test `sg/testdata`/TypeContainingAnonymousStructs#a.
//   kind Field
//   display_name a
//   signature_documentation
//   > struct field a struct{x int; y string}
//    ^ definition 0.1.test `sg/testdata`/TypeContainingAnonymousStructs#b.
//      kind Field
//      display_name b
//      signature_documentation
//      > struct field b struct{x int; y string}
    x int
//  ^ definition 0.1.test `sg/testdata`/TypeContainingAnonymousStructs#$anon_c0a8952b3a214f68#x.
//    kind Field
//    display_name x
//    signature_documentation
//    > struct field x int
    y string
//  ^ definition 0.1.test `sg/testdata`/TypeContainingAnonymousStructs#$anon_c0a8952b3a214f68#y.
//    kind Field
//    display_name y
//    signature_documentation
//    > struct field y string
   }
   c struct {
// ^ definition 0.1.test `sg/testdata`/TypeContainingAnonymousStructs#c.
//   kind Field
//   display_name c
//   signature_documentation
//   > struct field c struct{X int; Y string}
    X int
//  ^ definition 0.1.test `sg/testdata`/TypeContainingAnonymousStructs#$anon_2f238678626c0da1#X.
//    kind Field
//    display_name X
//    signature_documentation
//    > struct field X int
    Y string
//  ^ definition 0.1.test `sg/testdata`/TypeContainingAnonymousStructs#$anon_2f238678626c0da1#Y.
//    kind Field
//    display_name Y
//    signature_documentation
//    > struct field Y string
   }
  }
  
//⌄ enclosing_range_start 0.1.test `sg/testdata`/funcContainingAnonymousStructs().
  func funcContainingAnonymousStructs() {
//     ^^^^^^^^^^^^^^^^^^^^^^^^^^^^^^ definition 0.1.test `sg/testdata`/funcContainingAnonymousStructs().
//                                    kind Function
//                                    display_name funcContainingAnonymousStructs
//                                    signature_documentation
//                                    > func funcContainingAnonymousStructs()
   d := struct {
// ^ definition local 0
//   kind Variable
//   display_name d
//   signature_documentation
//   > var d struct{x int; y string}
    x int
//  ^ definition local 1
//    kind Field
//    display_name x
//    signature_documentation
//    > field x int
    y string
//  ^ definition local 2
//    kind Field
//    display_name y
//    signature_documentation
//    > field y string
   }{
    x: 1,
//  ^ reference local 1
    y: ""one"",
//  ^ reference local 2
   }
  
   var e struct {
//     ^ definition local 3
//       kind Variable
//       display_name e
//       signature_documentation
//       > var e struct{x int; y string}
    x int
//  ^ definition local 4
//    kind Field
//    display_name x
//    signature_documentation
//    > field x int
    y string
//  ^ definition local 5
//    kind Field
//    display_name y
//    signature_documentation
//    > field y string
   }
  
   e.x = 2
// ^ reference local 3
//   ^ reference local 4
   e.y = ""two""
// ^ reference local 3
//   ^ reference local 5
  
   var f TypeContainingAnonymousStructs
//     ^ definition local 6
//       kind Variable
//       display_name f
//       signature_documentation
//       > var f TypeContainingAnonymousStructs
//       ^^^^^^^^^^^^^^^^^^^^^^^^^^^^^^ reference 0.1.test `sg/testdata`/TypeContainingAnonymousStructs#
   f.a.x = 3
// ^ reference local 6
//   ^ reference 0.1.test `sg/testdata`/TypeContainingAnonymousStructs#a.
//     ^ reference 0.1.test `sg/testdata`/TypeContainingAnonymousStructs#$anon_c0a8952b3a214f68#x.
   f.a.y = ""three""
// ^ reference local 6
//   ^ reference 0.1.test `sg/testdata`/TypeContainingAnonymousStructs#a.
//     ^ reference 0.1.test `sg/testdata`/TypeContainingAnonymousStructs#$anon_c0a8952b3a214f68#y.
   f.b.x = 4
// ^ reference local 6
//   ^ reference 0.1.test `sg/testdata`/TypeContainingAnonymousStructs#b.
//     ^ reference 0.1.test `sg/testdata`/TypeContainingAnonymousStructs#$anon_c0a8952b3a214f68#x.
   f.b.y = ""four""
// ^ reference local 6
//   ^ reference 0.1.test `sg/testdata`/TypeContainingAnonymousStructs#b.
//     ^ reference 0.1.test `sg/testdata`/TypeContainingAnonymousStructs#$anon_c0a8952b3a214f68#y.
   f.c.X = 5
// ^ reference local 6
//   ^ reference 0.1.test `sg/testdata`/TypeContainingAnonymousStructs#c.
//     ^ reference 0.1.test `sg/testdata`/TypeContainingAnonymousStructs#$anon_2f238678626c0da1#X.
   f.c.Y = ""five""
// ^ reference local 6
//   ^ reference 0.1.test `sg/testdata`/TypeContainingAnonymousStructs#c.
//     ^ reference 0.1.test `sg/testdata`/TypeContainingAnonymousStructs#$anon_2f238678626c0da1#Y.
  
   fmt.Printf(""> %s, %s\n"", d.x, d.y)
// ^^^ reference github.com/golang/go/src go1.22 fmt/
//     ^^^^^^ reference github.com/golang/go/src go1.22 fmt/Printf().
//                          ^ reference local 0
//                            ^ reference local 1
//                               ^ reference local 0
//                                 ^ reference local 2
   fmt.Printf(""> %s, %s\n"", e.x, e.y)
// ^^^ reference github.com/golang/go/src go1.22 fmt/
//     ^^^^^^ reference github.com/golang/go/src go1.22 fmt/Printf().
//                          ^ reference local 3
//                            ^ reference local 4
//                               ^ reference local 3
//                                 ^ reference local 5
  
   fmt.Printf(""> %s, %s\n"", f.a.x, f.a.y)
// ^^^ reference github.com/golang/go/src go1.22 fmt/
//     ^^^^^^ reference github.com/golang/go/src go1.22 fmt/Printf().
//                          ^ reference local 6
//                            ^ reference 0.1.test `sg/testdata`/TypeContainingAnonymousStructs#a.
//                              ^ reference 0.1.test `sg/testdata`/TypeContainingAnonymousStructs#$anon_c0a8952b3a214f68#x.
//                                 ^ reference local 6
//                                   ^ reference 0.1.test `sg/testdata`/TypeContainingAnonymousStructs#a.
//                                     ^ reference 0.1.test `sg/testdata`/TypeContainingAnonymousStructs#$anon_c0a8952b3a214f68#y.
   fmt.Printf(""> %s, %s\n"", f.b.x, f.b.y)
// ^^^ reference github.com/golang/go/src go1.22 fmt/
//     ^^^^^^ reference github.com/golang/go/src go1.22 fmt/Printf().
//                          ^ reference local 6
//                            ^ reference 0.1.test `sg/testdata`/TypeContainingAnonymousStructs#b.
//                              ^ reference 0.1.test `sg/testdata`/TypeContainingAnonymousStructs#$anon_c0a8952b3a214f68#x.
//                                 ^ reference local 6
//                                   ^ reference 0.1.test `sg/testdata`/TypeContainingAnonymousStructs#b.
//                                     ^ reference 0.1.test `sg/testdata`/TypeContainingAnonymousStructs#$anon_c0a8952b3a214f68#y.
   fmt.Printf(""> %s, %s\n"", f.c.X, f.c.Y)
// ^^^ reference github.com/golang/go/src go1.22 fmt/
//     ^^^^^^ reference github.com/golang/go/src go1.22 fmt/Printf().
//                          ^ reference local 6
//                            ^ reference 0.1.test `sg/testdata`/TypeContainingAnonymousStructs#c.
//                              ^ reference 0.1.test `sg/testdata`/TypeContainingAnonymousStructs#$anon_2f238678626c0da1#X.
//                                 ^ reference local 6
//                                   ^ reference 0.1.test `sg/testdata`/TypeContainingAnonymousStructs#c.
//                                     ^ reference 0.1.test `sg/testdata`/TypeContainingAnonymousStructs#$anon_2f238678626c0da1#Y.
  }
//⌃ enclosing_range_end 0.1.test `sg/testdata`/funcContainingAnonymousStructs().
  
");
  ("cmd/minimal_main/minimal_main.go", "  package main
//        ^^^^ definition 0.1.test `sg/testdata/cmd/minimal_main`/
//             kind Package
//             display_name main
//             signature_documentation
//             > package main
  
  type User struct {
//     ^^^^ definition 0.1.test `sg/testdata/cmd/minimal_main`/User#
//          kind Struct
//          display_name User
//          signature_documentation
//          > type User struct {
//          >     Id   string
//          >     Name string
//          > }
   Id, Name string
// ^^ definition 0.1.test `sg/testdata/cmd/minimal_main`/User#Id.
//    kind Field
//    display_name Id
//    signature_documentation
//    > struct field Id string
//     ^^^^ definition 0.1.test `sg/testdata/cmd/minimal_main`/User#Name.
//          kind Field
//          display_name Name
//          signature_documentation
//          > struct field Name string
  }
  
  type UserResource struct{}
//     ^^^^^^^^^^^^ definition 0.1.test `sg/testdata/cmd/minimal_main`/UserResource#
//                  kind Struct
//                  display_name UserResource
//                  signature_documentation
//                  > type UserResource struct{}
  
//⌄ enclosing_range_start 0.1.test `sg/testdata/cmd/minimal_main`/main().
  func main() {}
//     ^^^^ definition 0.1.test `sg/testdata/cmd/minimal_main`/main().
//          kind Function
//          display_name main
//          signature_documentation
//          > func main()
//             ⌃ enclosing_range_end 0.1.test `sg/testdata/cmd/minimal_main`/main().
  
");
  ("conflicting_test_symbols/sandbox_unsupported_test.go", "  //go:build !linux && !windows && !freebsd
  // +build !linux,!windows,!freebsd
  
  package osl
//        ^^^ definition 0.1.test `sg/testdata/conflicting_test_symbols`/
//            kind Package
//            display_name osl
//            signature_documentation
//            > package osl
  
  import (
   ""errors""
//  ^^^^^^ reference github.com/golang/go/src go1.22 errors/
   ""testing""
//  ^^^^^^^ reference github.com/golang/go/src go1.22 testing/
  )
  
  var ErrNotImplemented = errors.New(""not implemented"")
//    ^^^^^^^^^^^^^^^^^ definition 0.1.test `sg/testdata/conflicting_test_symbols`/ErrNotImplemented.
//                      kind Variable
//                      display_name ErrNotImplemented
//                      signature_documentation
//                      > var ErrNotImplemented error
//                        ^^^^^^ reference github.com/golang/go/src go1.22 errors/
//                               ^^^ reference github.com/golang/go/src go1.22 errors/New().
  
//⌄ enclosing_range_start 0.1.test `sg/testdata/conflicting_test_symbols`/newKey().
  func newKey(t *testing.T) (string, error) {
//     ^^^^^^ definition 0.1.test `sg/testdata/conflicting_test_symbols`/newKey().
//            kind Function
//            display_name newKey
//            signature_documentation
//            > func newKey(t *testing.T) (string, error)
//            ^ definition local 0
//              kind Variable
//              display_name t
//              signature_documentation
//              > var t *T
//               ^^^^^^^ reference github.com/golang/go/src go1.22 testing/
//                       ^ reference github.com/golang/go/src go1.22 testing/T#
   return """", ErrNotImplemented
//            ^^^^^^^^^^^^^^^^^ reference 0.1.test `sg/testdata/conflicting_test_symbols`/ErrNotImplemented.
  }
//⌃ enclosing_range_end 0.1.test `sg/testdata/conflicting_test_symbols`/newKey().
  
//⌄ enclosing_range_start 0.1.test `sg/testdata/conflicting_test_symbols`/verifySandbox().
  func verifySandbox(t *testing.T, s string) {
//     ^^^^^^^^^^^^^ definition 0.1.test `sg/testdata/conflicting_test_symbols`/verifySandbox().
//                   kind Function
//                   display_name verifySandbox
//                   signature_documentation
//                   > func verifySandbox(t *testing.T, s string)
//                   ^ definition local 1
//                     kind Variable
//                     display_name t
//                     signature_documentation
//                     > var t *T
//                      ^^^^^^^ reference github.com/golang/go/src go1.22 testing/
//                              ^ reference github.com/golang/go/src go1.22 testing/T#
//                                 ^ definition local 2
//                                   kind Variable
//                                   display_name s
//                                   signature_documentation
//                                   > var s string
   return
  }
//⌃ enclosing_range_end 0.1.test `sg/testdata/conflicting_test_symbols`/verifySandbox().
  
");
  ("data.go", "  package testdata
//        ^^^^^^^^ definition 0.1.test `sg/testdata`/
  
  import (
   ""context""
//  ^^^^^^^ reference github.com/golang/go/src go1.22 context/
  
   ""sg/testdata/internal/secret""
//  ^^^^^^^^^^^^^^^^^^^^^^^^^^^ reference 0.1.test `sg/testdata/internal/secret`/
  )
  
  // TestInterface is an interface used for testing.
  type TestInterface interface {
//     ^^^^^^^^^^^^^ definition 0.1.test `sg/testdata`/TestInterface#
//                   kind Interface
//                   display_name TestInterface
//                   signature_documentation
//                   > type TestInterface interface {
//                   >     Do(ctx context.Context, data string) (score int, _ error)
//                   > }
//                   documentation
//                   > TestInterface is an interface used for testing.
   // Do does a test thing.
   Do(ctx context.Context, data string) (score int, _ error)
// ^^ definition 0.1.test `sg/testdata`/TestInterface#Do.
//    kind MethodSpecification
//    display_name Do
//    signature_documentation
//    > func (TestInterface).Do(ctx context.Context, data string) (score int, _ error)
//    documentation
//    > Do does a test thing.
//    ^^^ definition local 0
//        kind Variable
//        display_name ctx
//        signature_documentation
//        > var ctx Context
//        ^^^^^^^ reference github.com/golang/go/src go1.22 context/
//                ^^^^^^^ reference github.com/golang/go/src go1.22 context/Context#
//                         ^^^^ definition local 1
//                              kind Variable
//                              display_name data
//                              signature_documentation
//                              > var data string
//                                       ^^^^^ definition local 2
//                                             kind Variable
//                                             display_name score
//                                             signature_documentation
//                                             > var score int
  }
  
  type (
   // TestStruct is a struct used for testing.
   TestStruct struct {
// ^^^^^^^^^^ definition 0.1.test `sg/testdata`/TestStruct#
//            kind Struct
//            display_name TestStruct
//            signature_documentation
//            > type TestStruct struct {
//            >     SimpleA                int
//            >     SimpleB                int
//            >     SimpleC                int
//            >     FieldWithTag           string ""json:\""tag\""""
//            >     FieldWithAnonymousType struct {
//            >         NestedA string
//            >         NestedB string
//            >         NestedC string
//            >     }
//            >     EmptyStructField struct{}
//            > }
//            documentation
//            > TestStruct is a struct used for testing.
    // SimpleA docs
    SimpleA int
//  ^^^^^^^ definition 0.1.test `sg/testdata`/TestStruct#SimpleA.
//          kind Field
//          display_name SimpleA
//          signature_documentation
//          > struct field SimpleA int
//          documentation
//          > SimpleA docs
    // SimpleB docs
    SimpleB int
//  ^^^^^^^ definition 0.1.test `sg/testdata`/TestStruct#SimpleB.
//          kind Field
//          display_name SimpleB
//          signature_documentation
//          > struct field SimpleB int
//          documentation
//          > SimpleB docs
    // SimpleC docs
    SimpleC int
//  ^^^^^^^ definition 0.1.test `sg/testdata`/TestStruct#SimpleC.
//          kind Field
//          display_name SimpleC
//          signature_documentation
//          > struct field SimpleC int
//          documentation
//          > SimpleC docs
  
    FieldWithTag           string `json:""tag""`
//  ^^^^^^^^^^^^ definition 0.1.test `sg/testdata`/TestStruct#FieldWithTag.
//               kind Field
//               display_name FieldWithTag
//               signature_documentation
//               > struct field FieldWithTag string
    FieldWithAnonymousType struct {
//  ^^^^^^^^^^^^^^^^^^^^^^ definition 0.1.test `sg/testdata`/TestStruct#FieldWithAnonymousType.
//                         kind Field
//                         display_name FieldWithAnonymousType
//                         signature_documentation
//                         > struct field FieldWithAnonymousType struct{NestedA string; NestedB string; NestedC string}
     NestedA string
//   ^^^^^^^ definition 0.1.test `sg/testdata`/TestStruct#$anon_2bed88e490dc48af#NestedA.
//           kind Field
//           display_name NestedA
//           signature_documentation
//           > struct field NestedA string
     NestedB string
//   ^^^^^^^ definition 0.1.test `sg/testdata`/TestStruct#$anon_2bed88e490dc48af#NestedB.
//           kind Field
//           display_name NestedB
//           signature_documentation
//           > struct field NestedB string
     // NestedC docs
     NestedC string
//   ^^^^^^^ definition 0.1.test `sg/testdata`/TestStruct#$anon_2bed88e490dc48af#NestedC.
//           kind Field
//           display_name NestedC
//           signature_documentation
//           > struct field NestedC string
//           documentation
//           > NestedC docs
    }
  
    EmptyStructField struct{}
//  ^^^^^^^^^^^^^^^^ definition 0.1.test `sg/testdata`/TestStruct#EmptyStructField.
//                   kind Field
//                   display_name EmptyStructField
//                   signature_documentation
//                   > struct field EmptyStructField struct{}
   }
  
   TestEmptyStruct struct{}
// ^^^^^^^^^^^^^^^ definition 0.1.test `sg/testdata`/TestEmptyStruct#
//                 kind Struct
//                 display_name TestEmptyStruct
//                 signature_documentation
//                 > type TestEmptyStruct struct{}
  )
  
  // Score is just a hardcoded number.
  const Score = uint64(42)
//      ^^^^^ definition 0.1.test `sg/testdata`/Score.
//            kind Constant
//            display_name Score
//            signature_documentation
//            > const Score uint64 = 42
//            documentation
//            > Score is just a hardcoded number.
  const secretScore = secret.SecretScore
//      ^^^^^^^^^^^ definition 0.1.test `sg/testdata`/secretScore.
//                  kind Constant
//                  display_name secretScore
//                  signature_documentation
//                  > const secretScore uint64 = 43
//                    ^^^^^^ reference 0.1.test `sg/testdata/internal/secret`/
//                           ^^^^^^^^^^^ reference 0.1.test `sg/testdata/internal/secret`/SecretScore.
  
  const SomeString = ""foobar""
//      ^^^^^^^^^^ definition 0.1.test `sg/testdata`/SomeString.
//                 kind Constant
//                 display_name SomeString
//                 signature_documentation
//                 > const SomeString untyped string = ""foobar""
  const LongString = ""Lorem ipsum dolor sit amet, consectetur adipiscing elit. Sed tincidunt viverra aliquam. Phasellus finibus, arcu eu commodo porta, dui quam dictum ante, nec porta enim leo quis felis. Pellentesque habitant morbi tristique senectus et netus et malesuada fames ac turpis egestas. Curabitur luctus orci tortor, non condimentum arcu bibendum ut. Proin sit amet vulputate lorem, ut egestas arcu. Curabitur quis sagittis mi. Aenean elit sem, imperdiet ut risus eget, varius varius erat.\nNullam lobortis tortor sed sodales consectetur. Aenean condimentum vehicula elit, eget interdum ante finibus nec. Mauris mollis, nulla eu vehicula rhoncus, eros lectus viverra tellus, ac hendrerit quam massa et felis. Nunc vestibulum diam a facilisis sollicitudin. Aenean nec varius metus. Sed nec diam nibh. Ut erat erat, suscipit et ante eget, tincidunt condimentum orci. Aenean nec facilisis augue, ac sodales ex. Nulla dictum hendrerit tempus. Aliquam fringilla tortor in massa molestie, quis bibendum nulla ullamcorper. Suspendisse congue laoreet elit, vitae consectetur orci facilisis non. Aliquam tempus ultricies sapien, rhoncus tincidunt nisl tincidunt eget. Aliquam nisi ante, rutrum eget viverra imperdiet, congue ut nunc. Donec mollis sed tellus vel placerat. Sed mi ex, fringilla a fermentum a, tincidunt eget lectus.\nPellentesque lacus nibh, accumsan eget feugiat nec, gravida eget urna. Donec quam velit, imperdiet in consequat eget, ultricies eget nunc. Curabitur interdum vel sem et euismod. Donec sed vulputate odio, sit amet bibendum tellus. Integer pellentesque nunc eu turpis cursus, vestibulum sodales ipsum posuere. Vestibulum ante ipsum primis in faucibus orci luctus et ultrices posuere cubilia curae; Ut at vestibulum sapien. In hac habitasse platea dictumst. Nullam sed lobortis urna, non bibendum ipsum. Sed in sapien quis purus semper fringilla. Integer ut egestas nulla, eu ornare lectus. Maecenas quis sapien condimentum, dignissim urna quis, hendrerit neque. Donec cursus sit amet metus eu mollis.\nSed scelerisque vitae odio non egestas. Cras hendrerit tortor mauris. Aenean quis imperdiet nulla, a viverra purus. Orci varius natoque penatibus et magnis dis parturient montes, nascetur ridiculus mus. Praesent finibus faucibus orci, sed ultrices justo iaculis ut. Ut libero massa, condimentum at elit non, fringilla iaculis quam. Sed sit amet ipsum placerat, tincidunt sem in, efficitur lacus. Curabitur ligula orci, tempus ut magna eget, sodales tristique odio.\nPellentesque in libero ac risus pretium ultrices. In hac habitasse platea dictumst. Curabitur a quam sed orci tempus luctus. Integer commodo nec odio quis consequat. Aenean vitae dapibus augue, nec dictum lectus. Etiam sit amet leo diam. Duis eu ligula venenatis, fermentum lacus vel, interdum odio. Vivamus sit amet libero vitae elit interdum cursus et eu erat. Cras interdum augue sit amet ex aliquet tempor. Praesent dolor nisl, convallis bibendum mauris a, euismod commodo ante. Phasellus non ipsum condimentum, molestie dolor quis, pretium nisi. Mauris augue urna, fermentum ut lacinia a, efficitur vitae odio. Praesent finibus nisl et dolor luctus faucibus. Donec eget lectus sed mi porttitor placerat ac eu odio.""
//      ^^^^^^^^^^ definition 0.1.test `sg/testdata`/LongString.
//                 kind Constant
//                 display_name LongString
//                 signature_documentation
//                 > const LongString untyped string = ""Lorem ipsum dolor sit amet, consectetur adipiscing elit. Sed tincidu...
  const ConstMath = 1 + (2+3)*5
//      ^^^^^^^^^ definition 0.1.test `sg/testdata`/ConstMath.
//                kind Constant
//                display_name ConstMath
//                signature_documentation
//                > const ConstMath untyped int = 26
  
  type StringAlias string
//     ^^^^^^^^^^^ definition 0.1.test `sg/testdata`/StringAlias#
//                 kind Type
//                 display_name StringAlias
//                 signature_documentation
//                 > type StringAlias string
  
  const AliasedString StringAlias = ""foobar""
//      ^^^^^^^^^^^^^ definition 0.1.test `sg/testdata`/AliasedString.
//                    kind Constant
//                    display_name AliasedString
//                    signature_documentation
//                    > const AliasedString StringAlias = ""foobar""
//                    ^^^^^^^^^^^ reference 0.1.test `sg/testdata`/StringAlias#
  
  // Doer is similar to the test interface (but not the same).
//⌄ enclosing_range_start 0.1.test `sg/testdata`/TestStruct#Doer().
  func (ts *TestStruct) Doer(ctx context.Context, data string) (score int, err error) {
//      ^^ definition local 3
//         kind Variable
//         display_name ts
//         signature_documentation
//         > var ts *TestStruct
//          ^^^^^^^^^^ reference 0.1.test `sg/testdata`/TestStruct#
//                      ^^^^ definition 0.1.test `sg/testdata`/TestStruct#Doer().
//                           kind Method
//                           display_name Doer
//                           signature_documentation
//                           > func (*TestStruct).Doer(ctx context.Context, data string) (score int, err error)
//                           documentation
//                           > Doer is similar to the test interface (but not the same).
//                           ^^^ definition local 4
//                               kind Variable
//                               display_name ctx
//                               signature_documentation
//                               > var ctx Context
//                               ^^^^^^^ reference github.com/golang/go/src go1.22 context/
//                                       ^^^^^^^ reference github.com/golang/go/src go1.22 context/Context#
//                                                ^^^^ definition local 5
//                                                     kind Variable
//                                                     display_name data
//                                                     signature_documentation
//                                                     > var data string
//                                                              ^^^^^ definition local 6
//                                                                    kind Variable
//                                                                    display_name score
//                                                                    signature_documentation
//                                                                    > var score int
//                                                                         ^^^ definition local 7
//                                                                             kind Variable
//                                                                             display_name err
//                                                                             signature_documentation
//                                                                             > var err error
   return Score, nil
//        ^^^^^ reference 0.1.test `sg/testdata`/Score.
  }
//⌃ enclosing_range_end 0.1.test `sg/testdata`/TestStruct#Doer().
  
  // StructTagRegression is a struct that caused panic in the wild. Added here to
  // support a regression test.
  //
  // See https://github.com/tal-tech/go-zero/blob/11dd3d75ecceaa3f5772024fb3f26dec1ada8e9c/core/mapping/unmarshaler_test.go#L2272.
  type StructTagRegression struct {
//     ^^^^^^^^^^^^^^^^^^^ definition 0.1.test `sg/testdata`/StructTagRegression#
//                         kind Struct
//                         display_name StructTagRegression
//                         signature_documentation
//                         > type StructTagRegression struct {
//                         >     Value int ""key:\"",range=[:}\""""
//                         > }
//                         documentation
//                         > StructTagRegression is a struct that caused panic in the wild. Added here to
//                         > support a regression test.
//                         > 
//                         > See https://github.com/tal-tech/go-zero/blob/11dd3d75ecceaa3f5772024fb3f26dec1ada8e9c/core/mapping/unmarshaler_test.go#L2272.
   Value int `key:"",range=[:}""`
// ^^^^^ definition 0.1.test `sg/testdata`/StructTagRegression#Value.
//       kind Field
//       display_name Value
//       signature_documentation
//       > struct field Value int
  }
  
  type TestEqualsStruct = struct {
//     ^^^^^^^^^^^^^^^^ definition 0.1.test `sg/testdata`/TestEqualsStruct#
//                      kind TypeAlias
//                      display_name TestEqualsStruct
//                      signature_documentation
//                      > type TestEqualsStruct = struct{ Value int }
   Value int
// ^^^^^ definition 0.1.test `sg/testdata`/TestEqualsStruct#Value.
//       kind Field
//       display_name Value
//       signature_documentation
//       > struct field Value int
  }
  
  type ShellStruct struct {
//     ^^^^^^^^^^^ definition 0.1.test `sg/testdata`/ShellStruct#
//                 kind Struct
//                 display_name ShellStruct
//                 signature_documentation
//                 > type ShellStruct struct{ InnerStruct }
   // Ensure this field comes before the definition
   // so that we grab the correct one in our unit
   // tests.
   InnerStruct
// ^^^^^^^^^^^ definition 0.1.test `sg/testdata`/ShellStruct#InnerStruct.
//             kind Field
//             display_name InnerStruct
//             signature_documentation
//             > struct field InnerStruct InnerStruct
//             documentation
//             > Ensure this field comes before the definition
//             > so that we grab the correct one in our unit
//             > tests.
// ^^^^^^^^^^^ reference 0.1.test `sg/testdata`/InnerStruct#
  }
  
  type InnerStruct struct{}
//     ^^^^^^^^^^^ definition 0.1.test `sg/testdata`/InnerStruct#
//                 kind Struct
//                 display_name InnerStruct
//                 signature_documentation
//                 > type InnerStruct struct{}
  
");
  ("duplicate_path_id/main.go", "  package gosrc
//        ^^^^^ definition 0.1.test `sg/testdata/duplicate_path_id`/
//              kind Package
//              display_name gosrc
//              signature_documentation
//              > package gosrc
  
  type importMeta struct{}
//     ^^^^^^^^^^ definition 0.1.test `sg/testdata/duplicate_path_id`/importMeta#
//                kind Struct
//                display_name importMeta
//                signature_documentation
//                > type importMeta struct{}
  
  type sourceMeta struct{}
//     ^^^^^^^^^^ definition 0.1.test `sg/testdata/duplicate_path_id`/sourceMeta#
//                kind Struct
//                display_name sourceMeta
//                signature_documentation
//                > type sourceMeta struct{}
  
//⌄ enclosing_range_start 0.1.test `sg/testdata/duplicate_path_id`/fetchMeta().
  func fetchMeta() (string, *importMeta, *sourceMeta) {
//     ^^^^^^^^^ definition 0.1.test `sg/testdata/duplicate_path_id`/fetchMeta().
//               kind Function
//               display_name fetchMeta
//               signature_documentation
//               > func fetchMeta() (string, *importMeta, *sourceMeta)
//                           ^^^^^^^^^^ reference 0.1.test `sg/testdata/duplicate_path_id`/importMeta#
//                                        ^^^^^^^^^^ reference 0.1.test `sg/testdata/duplicate_path_id`/sourceMeta#
   panic(""hmm"")
  }
//⌃ enclosing_range_end 0.1.test `sg/testdata/duplicate_path_id`/fetchMeta().
  
//⌄ enclosing_range_start 0.1.test `sg/testdata/duplicate_path_id`/init().
  func init() {}
//     ^^^^ definition 0.1.test `sg/testdata/duplicate_path_id`/init().
//          kind Function
//          display_name init
//          signature_documentation
//          > func init()
//             ⌃ enclosing_range_end 0.1.test `sg/testdata/duplicate_path_id`/init().
//⌄ enclosing_range_start 0.1.test `sg/testdata/duplicate_path_id`/init().
  func init() {}
//     ^^^^ definition 0.1.test `sg/testdata/duplicate_path_id`/init().
//          kind Function
//          display_name init
//          signature_documentation
//          > func init()
//             ⌃ enclosing_range_end 0.1.test `sg/testdata/duplicate_path_id`/init().
//⌄ enclosing_range_start 0.1.test `sg/testdata/duplicate_path_id`/init().
  func init() {}
//     ^^^^ definition 0.1.test `sg/testdata/duplicate_path_id`/init().
//          kind Function
//          display_name init
//          signature_documentation
//          > func init()
//             ⌃ enclosing_range_end 0.1.test `sg/testdata/duplicate_path_id`/init().
  
");
  ("duplicate_path_id/two.go", "  package gosrc
//        ^^^^^ definition 0.1.test `sg/testdata/duplicate_path_id`/
  
//⌄ enclosing_range_start 0.1.test `sg/testdata/duplicate_path_id`/init().
  func init() {}
//     ^^^^ definition 0.1.test `sg/testdata/duplicate_path_id`/init().
//          kind Function
//          display_name init
//          signature_documentation
//          > func init()
//             ⌃ enclosing_range_end 0.1.test `sg/testdata/duplicate_path_id`/init().
  
");
  ("external_composite.go", "  package testdata
//        ^^^^^^^^ definition 0.1.test `sg/testdata`/
  
  import ""net/http""
//        ^^^^^^^^ reference github.com/golang/go/src go1.22 `net/http`/
  
  type NestedHandler struct {
//     ^^^^^^^^^^^^^ definition 0.1.test `sg/testdata`/NestedHandler#
//                   kind Struct
//                   display_name NestedHandler
//                   signature_documentation
//                   > type NestedHandler struct {
//                   >     http.Handler
//                   >     Other int
//                   > }
//                   relationship github.com/golang/go/src go1.22 `net/http`/Handler# implementation
   http.Handler
// ^^^^ reference github.com/golang/go/src go1.22 `net/http`/
//      ^^^^^^^ definition 0.1.test `sg/testdata`/NestedHandler#Handler.
//              kind Field
//              display_name Handler
//              signature_documentation
//              > struct field Handler http.Handler
//      ^^^^^^^ reference github.com/golang/go/src go1.22 `net/http`/Handler#
   Other int
// ^^^^^ definition 0.1.test `sg/testdata`/NestedHandler#Other.
//       kind Field
//       display_name Other
//       signature_documentation
//       > struct field Other int
  }
  
");
  ("implementations.go", "  package testdata
//        ^^^^^^^^ definition 0.1.test `sg/testdata`/
  
  type I0 interface{}
//     ^^ definition 0.1.test `sg/testdata`/I0#
//        kind Interface
//        display_name I0
//        signature_documentation
//        > type I0 interface{}
  
  type I1 interface {
//     ^^ definition 0.1.test `sg/testdata`/I1#
//        kind Interface
//        display_name I1
//        signature_documentation
//        > type I1 interface{ F1() }
   F1()
// ^^ definition 0.1.test `sg/testdata`/I1#F1.
//    kind MethodSpecification
//    display_name F1
//    signature_documentation
//    > func (I1).F1()
  }
  
  type I2 interface {
//     ^^ definition 0.1.test `sg/testdata`/I2#
//        kind Interface
//        display_name I2
//        signature_documentation
//        > type I2 interface{ F2() }
   F2()
// ^^ definition 0.1.test `sg/testdata`/I2#F2.
//    kind MethodSpecification
//    display_name F2
//    signature_documentation
//    > func (I2).F2()
  }
  
  type T1 int
//     ^^ definition 0.1.test `sg/testdata`/T1#
//        kind Type
//        display_name T1
//        signature_documentation
//        > type T1 int
//        relationship 0.1.test `sg/testdata`/I1# implementation
  
//⌄ enclosing_range_start 0.1.test `sg/testdata`/T1#F1().
  func (r T1) F1() {}
//      ^ definition local 0
//        kind Variable
//        display_name r
//        signature_documentation
//        > var r T1
//        ^^ reference 0.1.test `sg/testdata`/T1#
//            ^^ definition 0.1.test `sg/testdata`/T1#F1().
//               kind Method
//               display_name F1
//               signature_documentation
//               > func (T1).F1()
//               relationship 0.1.test `sg/testdata`/I1#F1. implementation
//                  ⌃ enclosing_range_end 0.1.test `sg/testdata`/T1#F1().
  
  type T2 int
//     ^^ definition 0.1.test `sg/testdata`/T2#
//        kind Type
//        display_name T2
//        signature_documentation
//        > type T2 int
//        relationship 0.1.test `sg/testdata`/I1# implementation
//        relationship 0.1.test `sg/testdata`/I2# implementation
  
//⌄ enclosing_range_start 0.1.test `sg/testdata`/T2#F1().
  func (r T2) F1() {}
//      ^ definition local 1
//        kind Variable
//        display_name r
//        signature_documentation
//        > var r T2
//        ^^ reference 0.1.test `sg/testdata`/T2#
//            ^^ definition 0.1.test `sg/testdata`/T2#F1().
//               kind Method
//               display_name F1
//               signature_documentation
//               > func (T2).F1()
//               relationship 0.1.test `sg/testdata`/I1#F1. implementation
//                  ⌃ enclosing_range_end 0.1.test `sg/testdata`/T2#F1().
//⌄ enclosing_range_start 0.1.test `sg/testdata`/T2#F2().
  func (r T2) F2() {}
//      ^ definition local 2
//        kind Variable
//        display_name r
//        signature_documentation
//        > var r T2
//        ^^ reference 0.1.test `sg/testdata`/T2#
//            ^^ definition 0.1.test `sg/testdata`/T2#F2().
//               kind Method
//               display_name F2
//               signature_documentation
//               > func (T2).F2()
//               relationship 0.1.test `sg/testdata`/I2#F2. implementation
//                  ⌃ enclosing_range_end 0.1.test `sg/testdata`/T2#F2().
  
  type A1 = T1
//     ^^ definition 0.1.test `sg/testdata`/A1#
//        kind TypeAlias
//        display_name A1
//        signature_documentation
//        > type A1 = T1
//          ^^ reference 0.1.test `sg/testdata`/T1#
  type A12 = A1
//     ^^^ definition 0.1.test `sg/testdata`/A12#
//         kind TypeAlias
//         display_name A12
//         signature_documentation
//         > type A12 = A1
//           ^^ reference 0.1.test `sg/testdata`/A1#
  
  type InterfaceWithNonExportedMethod interface {
//     ^^^^^^^^^^^^^^^^^^^^^^^^^^^^^^ definition 0.1.test `sg/testdata`/InterfaceWithNonExportedMethod#
//                                    kind Interface
//                                    display_name InterfaceWithNonExportedMethod
//                                    signature_documentation
//                                    > type InterfaceWithNonExportedMethod interface{ nonExportedMethod() }
   nonExportedMethod()
// ^^^^^^^^^^^^^^^^^ definition 0.1.test `sg/testdata`/InterfaceWithNonExportedMethod#nonExportedMethod.
//                   kind MethodSpecification
//                   display_name nonExportedMethod
//                   signature_documentation
//                   > func (InterfaceWithNonExportedMethod).nonExportedMethod()
  }
  
  type InterfaceWithExportedMethod interface {
//     ^^^^^^^^^^^^^^^^^^^^^^^^^^^ definition 0.1.test `sg/testdata`/InterfaceWithExportedMethod#
//                                 kind Interface
//                                 display_name InterfaceWithExportedMethod
//                                 signature_documentation
//                                 > type InterfaceWithExportedMethod interface{ ExportedMethod() }
   ExportedMethod()
// ^^^^^^^^^^^^^^ definition 0.1.test `sg/testdata`/InterfaceWithExportedMethod#ExportedMethod.
//                kind MethodSpecification
//                display_name ExportedMethod
//                signature_documentation
//                > func (InterfaceWithExportedMethod).ExportedMethod()
  }
  
  type Foo int
//     ^^^ definition 0.1.test `sg/testdata`/Foo#
//         kind Type
//         display_name Foo
//         signature_documentation
//         > type Foo int
//         relationship 0.1.test `sg/testdata`/EmbeddedI3# implementation
//         relationship 0.1.test `sg/testdata`/I3# implementation
//         relationship 0.1.test `sg/testdata`/InterfaceWithExportedMethod# implementation
//         relationship 0.1.test `sg/testdata`/InterfaceWithNonExportedMethod# implementation
  
//⌄ enclosing_range_start 0.1.test `sg/testdata`/Foo#nonExportedMethod().
  func (r Foo) nonExportedMethod() {}
//      ^ definition local 3
//        kind Variable
//        display_name r
//        signature_documentation
//        > var r Foo
//        ^^^ reference 0.1.test `sg/testdata`/Foo#
//             ^^^^^^^^^^^^^^^^^ definition 0.1.test `sg/testdata`/Foo#nonExportedMethod().
//                               kind Method
//                               display_name nonExportedMethod
//                               signature_documentation
//                               > func (Foo).nonExportedMethod()
//                               relationship 0.1.test `sg/testdata`/InterfaceWithNonExportedMethod#nonExportedMethod. implementation
//                                  ⌃ enclosing_range_end 0.1.test `sg/testdata`/Foo#nonExportedMethod().
//⌄ enclosing_range_start 0.1.test `sg/testdata`/Foo#ExportedMethod().
  func (r Foo) ExportedMethod()    {}
//      ^ definition local 4
//        kind Variable
//        display_name r
//        signature_documentation
//        > var r Foo
//        ^^^ reference 0.1.test `sg/testdata`/Foo#
//             ^^^^^^^^^^^^^^ definition 0.1.test `sg/testdata`/Foo#ExportedMethod().
//                            kind Method
//                            display_name ExportedMethod
//                            signature_documentation
//                            > func (Foo).ExportedMethod()
//                            relationship 0.1.test `sg/testdata`/InterfaceWithExportedMethod#ExportedMethod. implementation
//                                  ⌃ enclosing_range_end 0.1.test `sg/testdata`/Foo#ExportedMethod().
//⌄ enclosing_range_start 0.1.test `sg/testdata`/Foo#ScipTestMethod().
  func (r Foo) ScipTestMethod()    {}
//      ^ definition local 5
//        kind Variable
//        display_name r
//        signature_documentation
//        > var r Foo
//        ^^^ reference 0.1.test `sg/testdata`/Foo#
//             ^^^^^^^^^^^^^^ definition 0.1.test `sg/testdata`/Foo#ScipTestMethod().
//                            kind Method
//                            display_name ScipTestMethod
//                            signature_documentation
//                            > func (Foo).ScipTestMethod()
//                            relationship 0.1.test `sg/testdata`/EmbeddedI3#ScipTestMethod. implementation
//                            relationship 0.1.test `sg/testdata`/I3#ScipTestMethod. implementation
//                                  ⌃ enclosing_range_end 0.1.test `sg/testdata`/Foo#ScipTestMethod().
  
  type SharedOne interface {
//     ^^^^^^^^^ definition 0.1.test `sg/testdata`/SharedOne#
//               kind Interface
//               display_name SharedOne
//               signature_documentation
//               > type SharedOne interface {
//               >     Distinct()
//               >     Shared()
//               > }
   Shared()
// ^^^^^^ definition 0.1.test `sg/testdata`/SharedOne#Shared.
//        kind MethodSpecification
//        display_name Shared
//        signature_documentation
//        > func (SharedOne).Shared()
   Distinct()
// ^^^^^^^^ definition 0.1.test `sg/testdata`/SharedOne#Distinct.
//          kind MethodSpecification
//          display_name Distinct
//          signature_documentation
//          > func (SharedOne).Distinct()
  }
  
  type SharedTwo interface {
//     ^^^^^^^^^ definition 0.1.test `sg/testdata`/SharedTwo#
//               kind Interface
//               display_name SharedTwo
//               signature_documentation
//               > type SharedTwo interface {
//               >     Shared()
//               >     Unique()
//               > }
   Shared()
// ^^^^^^ definition 0.1.test `sg/testdata`/SharedTwo#Shared.
//        kind MethodSpecification
//        display_name Shared
//        signature_documentation
//        > func (SharedTwo).Shared()
   Unique()
// ^^^^^^ definition 0.1.test `sg/testdata`/SharedTwo#Unique.
//        kind MethodSpecification
//        display_name Unique
//        signature_documentation
//        > func (SharedTwo).Unique()
  }
  
  type Between struct{}
//     ^^^^^^^ definition 0.1.test `sg/testdata`/Between#
//             kind Struct
//             display_name Between
//             signature_documentation
//             > type Between struct{}
//             relationship 0.1.test `sg/testdata`/SharedOne# implementation
//             relationship 0.1.test `sg/testdata`/SharedTwo# implementation
  
//⌄ enclosing_range_start 0.1.test `sg/testdata`/Between#Shared().
  func (Between) Shared()   {}
//      ^^^^^^^ reference 0.1.test `sg/testdata`/Between#
//               ^^^^^^ definition 0.1.test `sg/testdata`/Between#Shared().
//                      kind Method
//                      display_name Shared
//                      signature_documentation
//                      > func (Between).Shared()
//                      relationship 0.1.test `sg/testdata`/SharedOne#Shared. implementation
//                      relationship 0.1.test `sg/testdata`/SharedTwo#Shared. implementation
//                           ⌃ enclosing_range_end 0.1.test `sg/testdata`/Between#Shared().
//⌄ enclosing_range_start 0.1.test `sg/testdata`/Between#Distinct().
  func (Between) Distinct() {}
//      ^^^^^^^ reference 0.1.test `sg/testdata`/Between#
//               ^^^^^^^^ definition 0.1.test `sg/testdata`/Between#Distinct().
//                        kind Method
//                        display_name Distinct
//                        signature_documentation
//                        > func (Between).Distinct()
//                        relationship 0.1.test `sg/testdata`/SharedOne#Distinct. implementation
//                           ⌃ enclosing_range_end 0.1.test `sg/testdata`/Between#Distinct().
//⌄ enclosing_range_start 0.1.test `sg/testdata`/Between#Unique().
  func (Between) Unique()   {}
//      ^^^^^^^ reference 0.1.test `sg/testdata`/Between#
//               ^^^^^^ definition 0.1.test `sg/testdata`/Between#Unique().
//                      kind Method
//                      display_name Unique
//                      signature_documentation
//                      > func (Between).Unique()
//                      relationship 0.1.test `sg/testdata`/SharedTwo#Unique. implementation
//                           ⌃ enclosing_range_end 0.1.test `sg/testdata`/Between#Unique().
  
//⌄ enclosing_range_start 0.1.test `sg/testdata`/shouldShow().
  func shouldShow(shared SharedOne) {
//     ^^^^^^^^^^ definition 0.1.test `sg/testdata`/shouldShow().
//                kind Function
//                display_name shouldShow
//                signature_documentation
//                > func shouldShow(shared SharedOne)
//                ^^^^^^ definition local 6
//                       kind Variable
//                       display_name shared
//                       signature_documentation
//                       > var shared SharedOne
//                       ^^^^^^^^^ reference 0.1.test `sg/testdata`/SharedOne#
   shared.Shared()
// ^^^^^^ reference local 6
//        ^^^^^^ reference 0.1.test `sg/testdata`/SharedOne#Shared.
  }
//⌃ enclosing_range_end 0.1.test `sg/testdata`/shouldShow().
  
");
  ("implementations_embedded.go", "  package testdata
//        ^^^^^^^^ definition 0.1.test `sg/testdata`/
  
  type I3 interface {
//     ^^ definition 0.1.test `sg/testdata`/I3#
//        kind Interface
//        display_name I3
//        signature_documentation
//        > type I3 interface{ ScipTestMethod() }
   ScipTestMethod()
// ^^^^^^^^^^^^^^ definition 0.1.test `sg/testdata`/I3#ScipTestMethod.
//                kind MethodSpecification
//                display_name ScipTestMethod
//                signature_documentation
//                > func (I3).ScipTestMethod()
  }
  
  type EmbeddedI3 interface {
//     ^^^^^^^^^^ definition 0.1.test `sg/testdata`/EmbeddedI3#
//                kind Interface
//                display_name EmbeddedI3
//                signature_documentation
//                > type EmbeddedI3 interface{ ScipTestMethod() }
   ScipTestMethod()
// ^^^^^^^^^^^^^^ definition 0.1.test `sg/testdata`/EmbeddedI3#ScipTestMethod.
//                kind MethodSpecification
//                display_name ScipTestMethod
//                signature_documentation
//                > func (EmbeddedI3).ScipTestMethod()
//                relationship 0.1.test `sg/testdata`/EmbeddedI3#ScipTestMethod. implementation
//                relationship 0.1.test `sg/testdata`/I3#ScipTestMethod. implementation
  }
  
  type TClose struct {
//     ^^^^^^ definition 0.1.test `sg/testdata`/TClose#
//            kind Struct
//            display_name TClose
//            signature_documentation
//            > type TClose struct{ EmbeddedI3 }
//            relationship 0.1.test `sg/testdata`/EmbeddedI3# implementation
//            relationship 0.1.test `sg/testdata`/I3# implementation
   EmbeddedI3
// ^^^^^^^^^^ definition 0.1.test `sg/testdata`/TClose#EmbeddedI3.
//            kind Field
//            display_name EmbeddedI3
//            signature_documentation
//            > struct field EmbeddedI3 EmbeddedI3
// ^^^^^^^^^^ reference 0.1.test `sg/testdata`/EmbeddedI3#
  }
  
");
  ("implementations_methods.go", "  package testdata
//        ^^^^^^^^ definition 0.1.test `sg/testdata`/
  
  type InterfaceWithSingleMethod interface {
//     ^^^^^^^^^^^^^^^^^^^^^^^^^ definition 0.1.test `sg/testdata`/InterfaceWithSingleMethod#
//                               kind Interface
//                               display_name InterfaceWithSingleMethod
//                               signature_documentation
//                               > type InterfaceWithSingleMethod interface{ SingleMethod() float64 }
   SingleMethod() float64
// ^^^^^^^^^^^^ definition 0.1.test `sg/testdata`/InterfaceWithSingleMethod#SingleMethod.
//              kind MethodSpecification
//              display_name SingleMethod
//              signature_documentation
//              > func (InterfaceWithSingleMethod).SingleMethod() float64
  }
  
  type StructWithMethods struct{}
//     ^^^^^^^^^^^^^^^^^ definition 0.1.test `sg/testdata`/StructWithMethods#
//                       kind Struct
//                       display_name StructWithMethods
//                       signature_documentation
//                       > type StructWithMethods struct{}
//                       relationship 0.1.test `sg/testdata`/InterfaceWithSingleMethod# implementation
  
//⌄ enclosing_range_start 0.1.test `sg/testdata`/StructWithMethods#SingleMethod().
  func (StructWithMethods) SingleMethod() float64 { return 5.0 }
//      ^^^^^^^^^^^^^^^^^ reference 0.1.test `sg/testdata`/StructWithMethods#
//                         ^^^^^^^^^^^^ definition 0.1.test `sg/testdata`/StructWithMethods#SingleMethod().
//                                      kind Method
//                                      display_name SingleMethod
//                                      signature_documentation
//                                      > func (StructWithMethods).SingleMethod() float64
//                                      relationship 0.1.test `sg/testdata`/InterfaceWithSingleMethod#SingleMethod. implementation
//                                                             ⌃ enclosing_range_end 0.1.test `sg/testdata`/StructWithMethods#SingleMethod().
  
  type InterfaceWithSingleMethodTwoImplementers interface {
//     ^^^^^^^^^^^^^^^^^^^^^^^^^^^^^^^^^^^^^^^^ definition 0.1.test `sg/testdata`/InterfaceWithSingleMethodTwoImplementers#
//                                              kind Interface
//                                              display_name InterfaceWithSingleMethodTwoImplementers
//                                              signature_documentation
//                                              > type InterfaceWithSingleMethodTwoImplementers interface{ SingleMethodTwoImpl() float64 }
   SingleMethodTwoImpl() float64
// ^^^^^^^^^^^^^^^^^^^ definition 0.1.test `sg/testdata`/InterfaceWithSingleMethodTwoImplementers#SingleMethodTwoImpl.
//                     kind MethodSpecification
//                     display_name SingleMethodTwoImpl
//                     signature_documentation
//                     > func (InterfaceWithSingleMethodTwoImplementers).SingleMethodTwoImpl() float64
  }
  
  type TwoImplOne struct{}
//     ^^^^^^^^^^ definition 0.1.test `sg/testdata`/TwoImplOne#
//                kind Struct
//                display_name TwoImplOne
//                signature_documentation
//                > type TwoImplOne struct{}
//                relationship 0.1.test `sg/testdata`/InterfaceWithSingleMethodTwoImplementers# implementation
  
//⌄ enclosing_range_start 0.1.test `sg/testdata`/TwoImplOne#SingleMethodTwoImpl().
  func (TwoImplOne) SingleMethodTwoImpl() float64 { return 5.0 }
//      ^^^^^^^^^^ reference 0.1.test `sg/testdata`/TwoImplOne#
//                  ^^^^^^^^^^^^^^^^^^^ definition 0.1.test `sg/testdata`/TwoImplOne#SingleMethodTwoImpl().
//                                      kind Method
//                                      display_name SingleMethodTwoImpl
//                                      signature_documentation
//                                      > func (TwoImplOne).SingleMethodTwoImpl() float64
//                                      relationship 0.1.test `sg/testdata`/InterfaceWithSingleMethodTwoImplementers#SingleMethodTwoImpl. implementation
//                                                             ⌃ enclosing_range_end 0.1.test `sg/testdata`/TwoImplOne#SingleMethodTwoImpl().
  
  type TwoImplTwo struct{}
//     ^^^^^^^^^^ definition 0.1.test `sg/testdata`/TwoImplTwo#
//                kind Struct
//                display_name TwoImplTwo
//                signature_documentation
//                > type TwoImplTwo struct{}
//                relationship 0.1.test `sg/testdata`/InterfaceWithSingleMethodTwoImplementers# implementation
  
//⌄ enclosing_range_start 0.1.test `sg/testdata`/TwoImplTwo#SingleMethodTwoImpl().
  func (TwoImplTwo) SingleMethodTwoImpl() float64         { return 5.0 }
//      ^^^^^^^^^^ reference 0.1.test `sg/testdata`/TwoImplTwo#
//                  ^^^^^^^^^^^^^^^^^^^ definition 0.1.test `sg/testdata`/TwoImplTwo#SingleMethodTwoImpl().
//                                      kind Method
//                                      display_name SingleMethodTwoImpl
//                                      signature_documentation
//                                      > func (TwoImplTwo).SingleMethodTwoImpl() float64
//                                      relationship 0.1.test `sg/testdata`/InterfaceWithSingleMethodTwoImplementers#SingleMethodTwoImpl. implementation
//                                                                     ⌃ enclosing_range_end 0.1.test `sg/testdata`/TwoImplTwo#SingleMethodTwoImpl().
//⌄ enclosing_range_start 0.1.test `sg/testdata`/TwoImplTwo#RandomThingThatDoesntMatter().
  func (TwoImplTwo) RandomThingThatDoesntMatter() float64 { return 5.0 }
//      ^^^^^^^^^^ reference 0.1.test `sg/testdata`/TwoImplTwo#
//                  ^^^^^^^^^^^^^^^^^^^^^^^^^^^ definition 0.1.test `sg/testdata`/TwoImplTwo#RandomThingThatDoesntMatter().
//                                              kind Method
//                                              display_name RandomThingThatDoesntMatter
//                                              signature_documentation
//                                              > func (TwoImplTwo).RandomThingThatDoesntMatter() float64
//                                                                     ⌃ enclosing_range_end 0.1.test `sg/testdata`/TwoImplTwo#RandomThingThatDoesntMatter().
  
");
  ("implementations_remote.go", "  package testdata
//        ^^^^^^^^ definition 0.1.test `sg/testdata`/
  
  import ""net/http""
//        ^^^^^^^^ reference github.com/golang/go/src go1.22 `net/http`/
  
  type implementsWriter struct{}
//     ^^^^^^^^^^^^^^^^ definition 0.1.test `sg/testdata`/implementsWriter#
//                      kind Struct
//                      display_name implementsWriter
//                      signature_documentation
//                      > type implementsWriter struct{}
//                      relationship github.com/golang/go/src go1.22 `net/http`/ResponseWriter# implementation
//                      relationship github.com/golang/go/src go1.22 io/Writer# implementation
  
//⌄ enclosing_range_start 0.1.test `sg/testdata`/implementsWriter#Header().
  func (implementsWriter) Header() http.Header        { panic(""Just for how"") }
//      ^^^^^^^^^^^^^^^^ reference 0.1.test `sg/testdata`/implementsWriter#
//                        ^^^^^^ definition 0.1.test `sg/testdata`/implementsWriter#Header().
//                               kind Method
//                               display_name Header
//                               signature_documentation
//                               > func (implementsWriter).Header() http.Header
//                               relationship github.com/golang/go/src go1.22 `net/http`/ResponseWriter#Header(). implementation
//                                 ^^^^ reference github.com/golang/go/src go1.22 `net/http`/
//                                      ^^^^^^ reference github.com/golang/go/src go1.22 `net/http`/Header#
//                                                                            ⌃ enclosing_range_end 0.1.test `sg/testdata`/implementsWriter#Header().
//⌄ enclosing_range_start 0.1.test `sg/testdata`/implementsWriter#Write().
  func (implementsWriter) Write([]byte) (int, error)  { panic(""Just for show"") }
//      ^^^^^^^^^^^^^^^^ reference 0.1.test `sg/testdata`/implementsWriter#
//                        ^^^^^ definition 0.1.test `sg/testdata`/implementsWriter#Write().
//                              kind Method
//                              display_name Write
//                              signature_documentation
//                              > func (implementsWriter).Write([]byte) (int, error)
//                              relationship github.com/golang/go/src go1.22 `net/http`/ResponseWriter#Write(). implementation
//                              relationship github.com/golang/go/src go1.22 io/Writer#Write(). implementation
//                                                                             ⌃ enclosing_range_end 0.1.test `sg/testdata`/implementsWriter#Write().
//⌄ enclosing_range_start 0.1.test `sg/testdata`/implementsWriter#WriteHeader().
  func (implementsWriter) WriteHeader(statusCode int) {}
//      ^^^^^^^^^^^^^^^^ reference 0.1.test `sg/testdata`/implementsWriter#
//                        ^^^^^^^^^^^ definition 0.1.test `sg/testdata`/implementsWriter#WriteHeader().
//                                    kind Method
//                                    display_name WriteHeader
//                                    signature_documentation
//                                    > func (implementsWriter).WriteHeader(statusCode int)
//                                    relationship github.com/golang/go/src go1.22 `net/http`/ResponseWriter#WriteHeader(). implementation
//                                    ^^^^^^^^^^ definition local 0
//                                               kind Variable
//                                               display_name statusCode
//                                               signature_documentation
//                                               > var statusCode int
//                                                     ⌃ enclosing_range_end 0.1.test `sg/testdata`/implementsWriter#WriteHeader().
  
//⌄ enclosing_range_start 0.1.test `sg/testdata`/ShowsInSignature().
  func ShowsInSignature(respWriter http.ResponseWriter) {
//     ^^^^^^^^^^^^^^^^ definition 0.1.test `sg/testdata`/ShowsInSignature().
//                      kind Function
//                      display_name ShowsInSignature
//                      signature_documentation
//                      > func ShowsInSignature(respWriter http.ResponseWriter)
//                      ^^^^^^^^^^ definition local 1
//                                 kind Variable
//                                 display_name respWriter
//                                 signature_documentation
//                                 > var respWriter ResponseWriter
//                                 ^^^^ reference github.com/golang/go/src go1.22 `net/http`/
//                                      ^^^^^^^^^^^^^^ reference github.com/golang/go/src go1.22 `net/http`/ResponseWriter#
   respWriter.WriteHeader(1)
// ^^^^^^^^^^ reference local 1
//            ^^^^^^^^^^^ reference github.com/golang/go/src go1.22 `net/http`/ResponseWriter#WriteHeader().
  }
//⌃ enclosing_range_end 0.1.test `sg/testdata`/ShowsInSignature().
  
");
  ("internal/secret/doc.go", "  // secret is a package that holds secrets.
  package secret
//        ^^^^^^ definition 0.1.test `sg/testdata/internal/secret`/
//               kind Package
//               display_name secret
//               signature_documentation
//               > package secret
//               documentation
//               > secret is a package that holds secrets.
  
");
  ("internal/secret/secret.go", "  package secret
//        ^^^^^^ definition 0.1.test `sg/testdata/internal/secret`/
  
  // SecretScore is like score but _secret_.
  const SecretScore = uint64(43)
//      ^^^^^^^^^^^ definition 0.1.test `sg/testdata/internal/secret`/SecretScore.
//                  kind Constant
//                  display_name SecretScore
//                  signature_documentation
//                  > const SecretScore uint64 = 43
//                  documentation
//                  > SecretScore is like score but _secret_.
  
  // Original doc
  type Burger struct {
//     ^^^^^^ definition 0.1.test `sg/testdata/internal/secret`/Burger#
//            kind Struct
//            display_name Burger
//            signature_documentation
//            > type Burger struct{ Field int }
//            documentation
//            > Original doc
   Field int
// ^^^^^ definition 0.1.test `sg/testdata/internal/secret`/Burger#Field.
//       kind Field
//       display_name Field
//       signature_documentation
//       > struct field Field int
  }
  
");
  ("named_import.go", "  package testdata
//        ^^^^^^^^ definition 0.1.test `sg/testdata`/
  
  import (
   . ""fmt""
//    ^^^ reference github.com/golang/go/src go1.22 fmt/
   h ""net/http""
// ^ reference github.com/golang/go/src go1.22 `net/http`/
//    ^^^^^^^^ reference github.com/golang/go/src go1.22 `net/http`/
  )
  
//⌄ enclosing_range_start 0.1.test `sg/testdata`/Example().
  func Example() {
//     ^^^^^^^ definition 0.1.test `sg/testdata`/Example().
//             kind Function
//             display_name Example
//             signature_documentation
//             > func Example()
   Println(h.CanonicalHeaderKey(""accept-encoding""))
// ^^^^^^^ reference github.com/golang/go/src go1.22 fmt/Println().
//         ^ reference github.com/golang/go/src go1.22 `net/http`/
//           ^^^^^^^^^^^^^^^^^^ reference github.com/golang/go/src go1.22 `net/http`/CanonicalHeaderKey().
  }
//⌃ enclosing_range_end 0.1.test `sg/testdata`/Example().
  
");
  ("parallel.go", "  package testdata
//        ^^^^^^^^ definition 0.1.test `sg/testdata`/
  
  import (
   ""context""
//  ^^^^^^^ reference github.com/golang/go/src go1.22 context/
   ""sync""
//  ^^^^ reference github.com/golang/go/src go1.22 sync/
  )
  
  // ParallelizableFunc is a function that can be called concurrently with other instances
  // of this function type.
  type ParallelizableFunc func(ctx context.Context) error
//     ^^^^^^^^^^^^^^^^^^ definition 0.1.test `sg/testdata`/ParallelizableFunc#
//                        kind Type
//                        display_name ParallelizableFunc
//                        signature_documentation
//                        > type ParallelizableFunc func(ctx context.Context) error
//                        documentation
//                        > ParallelizableFunc is a function that can be called concurrently with other instances
//                        > of this function type.
//                             ^^^ definition local 0
//                                 kind Variable
//                                 display_name ctx
//                                 signature_documentation
//                                 > var ctx Context
//                                 ^^^^^^^ reference github.com/golang/go/src go1.22 context/
//                                         ^^^^^^^ reference github.com/golang/go/src go1.22 context/Context#
  
  // Parallel invokes each of the given parallelizable functions in their own goroutines and
  // returns the first error to occur. This method will block until all goroutines have returned.
//⌄ enclosing_range_start 0.1.test `sg/testdata`/Parallel().
  func Parallel(ctx context.Context, fns ...ParallelizableFunc) error {
//     ^^^^^^^^ definition 0.1.test `sg/testdata`/Parallel().
//              kind Function
//              display_name Parallel
//              signature_documentation
//              > func Parallel(ctx context.Context, fns ...ParallelizableFunc) error
//              documentation
//              > Parallel invokes each of the given parallelizable functions in their own goroutines and
//              > returns the first error to occur. This method will block until all goroutines have returned.
//              ^^^ definition local 1
//                  kind Variable
//                  display_name ctx
//                  signature_documentation
//                  > var ctx Context
//                  ^^^^^^^ reference github.com/golang/go/src go1.22 context/
//                          ^^^^^^^ reference github.com/golang/go/src go1.22 context/Context#
//                                   ^^^ definition local 2
//                                       kind Variable
//                                       display_name fns
//                                       signature_documentation
//                                       > var fns []ParallelizableFunc
//                                          ^^^^^^^^^^^^^^^^^^ reference 0.1.test `sg/testdata`/ParallelizableFunc#
   var wg sync.WaitGroup
//     ^^ definition local 3
//        kind Variable
//        display_name wg
//        signature_documentation
//        > var wg WaitGroup
//        ^^^^ reference github.com/golang/go/src go1.22 sync/
//             ^^^^^^^^^ reference github.com/golang/go/src go1.22 sync/WaitGroup#
   errs := make(chan error, len(fns))
// ^^^^ definition local 4
//      kind Variable
//      display_name errs
//      signature_documentation
//      > var errs chan error
//                              ^^^ reference local 2
  
   for _, fn := range fns {
//        ^^ definition local 5
//           kind Variable
//           display_name fn
//           signature_documentation
//           > var fn ParallelizableFunc
//                    ^^^ reference local 2
    wg.Add(1)
//  ^^ reference local 3
//     ^^^ reference github.com/golang/go/src go1.22 sync/WaitGroup#Add().
  
    go func(fn ParallelizableFunc) {
//          ^^ definition local 6
//             kind Variable
//             display_name fn
//             signature_documentation
//             > var fn ParallelizableFunc
//             ^^^^^^^^^^^^^^^^^^ reference 0.1.test `sg/testdata`/ParallelizableFunc#
     errs <- fn(ctx)
//   ^^^^ reference local 4
//           ^^ reference local 6
//              ^^^ reference local 1
     wg.Done()
//   ^^ reference local 3
//      ^^^^ reference github.com/golang/go/src go1.22 sync/WaitGroup#Done().
    }(fn)
//    ^^ reference local 5
   }
  
   wg.Wait()
// ^^ reference local 3
//    ^^^^ reference github.com/golang/go/src go1.22 sync/WaitGroup#Wait().
  
   for err := range errs {
//     ^^^ definition local 7
//         kind Variable
//         display_name err
//         signature_documentation
//         > var err error
//                  ^^^^ reference local 4
    if err != nil {
//     ^^^ reference local 7
     return err
//          ^^^ reference local 7
    }
   }
  
   return nil
  }
//⌃ enclosing_range_end 0.1.test `sg/testdata`/Parallel().
  
");
  ("typealias.go", "  package testdata
//        ^^^^^^^^ definition 0.1.test `sg/testdata`/
  
  import (
   ""sg/testdata/internal/secret""
//  ^^^^^^^^^^^^^^^^^^^^^^^^^^^ reference 0.1.test `sg/testdata/internal/secret`/
  )
  
  // Type aliased doc
  type SecretBurger = secret.Burger
//     ^^^^^^^^^^^^ definition 0.1.test `sg/testdata`/SecretBurger#
//                  kind TypeAlias
//                  display_name SecretBurger
//                  signature_documentation
//                  > type SecretBurger = secret.Burger
//                  documentation
//                  > Type aliased doc
//                    ^^^^^^ reference 0.1.test `sg/testdata/internal/secret`/
//                           ^^^^^^ reference 0.1.test `sg/testdata/internal/secret`/Burger#
  
  type BadBurger = struct {
//     ^^^^^^^^^ definition 0.1.test `sg/testdata`/BadBurger#
//               kind TypeAlias
//               display_name BadBurger
//               signature_documentation
//               > type BadBurger = struct{ Field string }
   Field string
// ^^^^^ definition 0.1.test `sg/testdata`/BadBurger#Field.
//       kind Field
//       display_name Field
//       signature_documentation
//       > struct field Field string
  }
  
");
  ("typeswitch.go", "  package testdata
//        ^^^^^^^^ definition 0.1.test `sg/testdata`/
  
//⌄ enclosing_range_start 0.1.test `sg/testdata`/Switch().
  func Switch(interfaceValue interface{}) bool {
//     ^^^^^^ definition 0.1.test `sg/testdata`/Switch().
//            kind Function
//            display_name Switch
//            signature_documentation
//            > func Switch(interfaceValue interface{}) bool
//            ^^^^^^^^^^^^^^ definition local 0
//                           kind Variable
//                           display_name interfaceValue
//                           signature_documentation
//                           > var interfaceValue interface{}
   switch concreteValue := interfaceValue.(type) {
//        ^^^^^^^^^^^^^ definition local 1
//                      kind Variable
//                      display_name concreteValue
//                         ^^^^^^^^^^^^^^ reference local 0
   case int:
    return concreteValue*3 > 10
//         ^^^^^^^^^^^^^ reference local 1
   case bool:
    return !concreteValue
//          ^^^^^^^^^^^^^ reference local 1
   default:
    return false
   }
  }
//⌃ enclosing_range_end 0.1.test `sg/testdata`/Switch().
  
")].

(** The model, run on the input directory, gives the golden files of /repo. *)
Example snapshot_testdata : snapshot input = Some golden.
Proof. vm_compute. reflexivity. Qed.
(** The directory meets the hypotheses of the theorems (Contract.scopes_contract_ok). *)
Example snapshot_testdata_contract : contract input = true ∧ scopesb input = true.
Proof. split; vm_compute; reflexivity. Qed.
