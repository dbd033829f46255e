(** Generated by tools/snapshot/emit.py from /repo/internal/testdata/snapshots/{input,output}/pr218: what packages.Load
    returns for that directory (syntax, types, modules; dependencies reduced to the declarations used), and the golden output. *)
From Coq Require Import Ascii String.
From stdpp Require Import prelude strings gmap.
From Verif Require Import GoStr Scip GoTypes Ast Packages Source Signature Snapshot Contract.
Open Scope string_scope.
Open Scope list_scope.
(* pr218/pr218.go *)
Definition f1_0 : node := (NFile 1 false "" (Ident 1 "pr218" 9)
  [(NGenDecl 56 CONST "Deprecated: Use NewGreeting instead.
" [(NValueSpec "" "" [(Ident 2 "OldGreeting" 62)] None [])]);
   (NGenDecl 85 CONST "" [(NValueSpec "" "" [(Ident 3 "NewGreeting" 91)] None [])]);
   (NFuncDecl "Deprecated: Use Add instead.
" 143 186 None (Ident 4 "OldAdd" 148) (NFuncType 143 (NFieldList []) (NFieldList [(NField "" "" [(Ident 5 "a" 155); (Ident 6 "b" 158)] (NIdent (Ident 7 "int" 160)))]) (NFieldList [(NField "" "" [] (NIdent (Ident 8 "int" 165)))])) (Some (NBlockStmt 169 [(NOther 172 [(NBinaryExpr (NIdent (Ident 9 "a" 179)) (NIdent (Ident 10 "b" 183)))])])));
   (NFuncDecl "" 188 228 None (Ident 11 "Add" 193) (NFuncType 188 (NFieldList []) (NFieldList [(NField "" "" [(Ident 12 "a" 197); (Ident 13 "b" 200)] (NIdent (Ident 14 "int" 202)))]) (NFieldList [(NField "" "" [] (NIdent (Ident 15 "int" 207)))])) (Some (NBlockStmt 211 [(NOther 214 [(NBinaryExpr (NIdent (Ident 16 "a" 221)) (NIdent (Ident 17 "b" 225)))])])));
   (NGenDecl 265 TYPE "Deprecated: Use Server instead.
" [(NTypeSpec "" (Ident 18 "OldServer" 270) (NFieldList []) (NStructType 19 280 (NFieldList [(NField "Deprecated: Use Addr instead.
" "" [(Ident 20 "Host" 324)] (NIdent (Ident 21 "string" 329))); (NField "" "" [(Ident 22 "Addr" 337)] (NIdent (Ident 23 "string" 342)))])))]);
   (NGenDecl 352 TYPE "" [(NTypeSpec "" (Ident 24 "Server" 357) (NFieldList []) (NStructType 25 364 (NFieldList [(NField "" "" [(Ident 26 "Addr" 374)] (NIdent (Ident 27 "string" 379)))])))]);
   (NFuncDecl "" 389 513 None (Ident 28 "UseDeprecated" 394) (NFuncType 389 (NFieldList []) (NFieldList []) (NFieldList [])) (Some (NBlockStmt 410 [(NOther 413 [(NIdent (Ident 29 "_" 413)); (NIdent (Ident 30 "OldGreeting" 417))]); (NOther 430 [(NIdent (Ident 31 "_" 430)); (NIdent (Ident 32 "NewGreeting" 434))]); (NOther 448 [(NIdent (Ident 33 "_" 448)); (NOther 452 [(NIdent (Ident 34 "OldAdd" 452))])]); (NOther 466 [(NIdent (Ident 35 "_" 466)); (NOther 470 [(NIdent (Ident 36 "Add" 470))])]); (NOther 482 [(NIdent (Ident 37 "_" 482)); (NOther 486 [(NIdent (Ident 38 "OldServer" 486))])]); (NOther 499 [(NIdent (Ident 39 "_" 499)); (NOther 503 [(NIdent (Ident 40 "Server" 503))])])])))]).
Definition k0 : tpkg := TPkg "sg/pr218" [SEntry "Add" false (TBasic BInvalid false); SEntry "NewGreeting" false (TBasic BInvalid false); SEntry "OldAdd" false (TBasic BInvalid false); SEntry "OldGreeting" false (TBasic BInvalid false); SEntry "OldServer" true (TNamed (TName 51 (Some "sg/pr218") "OldServer") []); SEntry "Server" true (TNamed (TName 52 (Some "sg/pr218") "Server") []); SEntry "UseDeprecated" false (TBasic BInvalid false)].
Definition o47 : obj := Obj 47 "OldGreeting" (Some k0) 62 OConst (TBasic BUntypedString false) None.
Definition o48 : obj := Obj 48 "NewGreeting" (Some k0) 91 OConst (TBasic BUntypedString false) None.
Definition o49 : obj := Obj 49 "OldAdd" (Some k0) 148 (OFunc (Some None)) (TSig [(TBasic BInt false); (TBasic BInt false)] [(TBasic BInt false)] false) None.
Definition o50 : obj := Obj 50 "Add" (Some k0) 193 (OFunc (Some None)) (TSig [(TBasic BInt false); (TBasic BInt false)] [(TBasic BInt false)] false) None.
Definition o51 : obj := Obj 51 "OldServer" (Some k0) 270 OTypeName (TNamed (TName 51 (Some "sg/pr218") "OldServer") []) None.
Definition o52 : obj := Obj 52 "Server" (Some k0) 357 OTypeName (TNamed (TName 52 (Some "sg/pr218") "Server") []) None.
Definition o53 : obj := Obj 53 "UseDeprecated" (Some k0) 394 (OFunc (Some None)) (TSig [] [] false) None.
Definition o54 : obj := Obj 54 "a" (Some k0) 155 (OVar false) (TBasic BInt false) None.
Definition o55 : obj := Obj 55 "b" (Some k0) 158 (OVar false) (TBasic BInt false) None.
Definition o57 : obj := Obj 57 "a" (Some k0) 197 (OVar false) (TBasic BInt false) None.
Definition o58 : obj := Obj 58 "b" (Some k0) 200 (OVar false) (TBasic BInt false) None.
Definition o60 : obj := Obj 60 "Host" (Some k0) 324 (OVar true) (TBasic BString false) None.
Definition o61 : obj := Obj 61 "Addr" (Some k0) 337 (OVar true) (TBasic BString false) None.
Definition o62 : obj := Obj 62 "Addr" (Some k0) 374 (OVar true) (TBasic BString false) None.
Definition o2 : obj := Obj 2 "int" None 0 OTypeName (TBasic BInt false) None.
Definition o17 : obj := Obj 17 "string" None 0 OTypeName (TBasic BString false) None.
Definition defs1 : list (nat * obj) := [(2, o47); (3, o48); (4, o49); (11, o50); (18, o51); (24, o52); (28, o53); (5, o54); (6, o55); (12, o57); (13, o58); (20, o60); (22, o61); (26, o62)].
Definition uses1 : list (nat * obj) := [(7, o2); (8, o2); (14, o2); (15, o2); (21, o17); (23, o17); (27, o17); (9, o54); (10, o55); (16, o57); (17, o58); (30, o47); (32, o48); (34, o49); (36, o50); (38, o51); (40, o52)].
Definition canon1 : list (nat * hty) := [(19, (HStruct [("Host", false, "", (HBasic "string")); ("Addr", false, "", (HBasic "string"))])); (25, (HStruct [("Addr", false, "", (HBasic "string"))]))].
Definition pkgnames1 : list (nat * obj) := [].
Definition cases1 : list obj := [].
Definition hobjs : list (nat * hobj) := [(47, HObj "OldGreeting" (Some (HPkg "sg/pr218" "pr218")) true (HConst (HBasic "untyped string") """hello"""));
  (48, HObj "NewGreeting" (Some (HPkg "sg/pr218" "pr218")) true (HConst (HBasic "untyped string") """hi"""));
  (49, HObj "OldAdd" (Some (HPkg "sg/pr218" "pr218")) true (HFunc None (HSig [] [("a", (HBasic "int")); ("b", (HBasic "int"))] [("", (HBasic "int"))] false)));
  (50, HObj "Add" (Some (HPkg "sg/pr218" "pr218")) true (HFunc None (HSig [] [("a", (HBasic "int")); ("b", (HBasic "int"))] [("", (HBasic "int"))] false)));
  (51, HObj "OldServer" (Some (HPkg "sg/pr218" "pr218")) true (HTypeName (DDefined [] (HStruct [("Host", false, "", (HBasic "string")); ("Addr", false, "", (HBasic "string"))]))));
  (52, HObj "Server" (Some (HPkg "sg/pr218" "pr218")) true (HTypeName (DDefined [] (HStruct [("Addr", false, "", (HBasic "string"))]))));
  (53, HObj "UseDeprecated" (Some (HPkg "sg/pr218" "pr218")) true (HFunc None (HSig [] [] [] false)));
  (54, HObj "a" (Some (HPkg "sg/pr218" "pr218")) false (HVar false (HBasic "int")));
  (55, HObj "b" (Some (HPkg "sg/pr218" "pr218")) false (HVar false (HBasic "int")));
  (57, HObj "a" (Some (HPkg "sg/pr218" "pr218")) false (HVar false (HBasic "int")));
  (58, HObj "b" (Some (HPkg "sg/pr218" "pr218")) false (HVar false (HBasic "int")));
  (60, HObj "Host" (Some (HPkg "sg/pr218" "pr218")) false (HVar true (HBasic "string")));
  (61, HObj "Addr" (Some (HPkg "sg/pr218" "pr218")) false (HVar true (HBasic "string")));
  (62, HObj "Addr" (Some (HPkg "sg/pr218" "pr218")) false (HVar true (HBasic "string")))].
Definition unders : list (nat * ty) := [(51, (TStruct [(FHdr 60 "Host" (Some "sg/pr218") false "", (TBasic BString false)); (FHdr 61 "Addr" (Some "sg/pr218") false "", (TBasic BString false))]));
  (52, (TStruct [(FHdr 62 "Addr" (Some "sg/pr218") false "", (TBasic BString false))]))].
Definition msets : list (nat * (list obj * list obj)) := [(51, ([], []));
  (52, ([], []))].
Definition digests : list (string * string) := [("struct{Host string; Addr string}", "3e8698e1a3c3e278");
  ("struct{Addr string}", "8a8f51a6cf067d47")].
Definition formatted : list (string * string) := [("package p

type _ struct{Host string; Addr string}
", "package p

type _ struct {
	Host string
	Addr string
}
");
  ("package p

type _ struct{Addr string}
", "package p

type _ struct{ Addr string }
")].
Definition sources : list src := [Src "/repo/internal/testdata/snapshots/input/pr218/pr218.go" 1 "package pr218

// Deprecated: Use NewGreeting instead.
const OldGreeting = ""hello""

const NewGreeting = ""hi""

// Deprecated: Use Add instead.
func OldAdd(a, b int) int {
	return a + b
}

func Add(a, b int) int {
	return a + b
}

// Deprecated: Use Server instead.
type OldServer struct {
	// Deprecated: Use Addr instead.
	Host string
	Addr string
}

type Server struct {
	Addr string
}

func UseDeprecated() {
	_ = OldGreeting
	_ = NewGreeting

	_ = OldAdd(1, 2)
	_ = Add(1, 2)

	_ = OldServer{}
	_ = Server{}
}
" []].
Definition gomods : list (string * string) := [].
Definition p1 : gpkg * option raw := (GPkg 1 "sg/pr218" "pr218" (Some (GMod "sg/pr218" "" "/repo/internal/testdata/snapshots/input/pr218" "/repo/internal/testdata/snapshots/input/pr218/go.mod" None)) [] [f1_0] (Some k0) None, (Some (Raw defs1 uses1 pkgnames1 cases1 canon1))).
Definition packages : list (gpkg * option raw) := [p1].
Definition roots : list nat := [1].
Definition scopes : list (nat * list obj) := [].
Definition levels : list nat := [51; 52].
Definition input : input := Input "/repo/internal/testdata/snapshots/input/pr218" "sg/pr218" false sources packages roots gomods digests formatted hobjs unders msets scopes levels.
Definition golden : list (string * string) := [("pr218.go", "  package pr218
//        ^^^^^ definition 0.1.test `sg/pr218`/
//              kind Package
//              display_name pr218
//              signature_documentation
//              > package pr218
  
  // Deprecated: Use NewGreeting instead.
  const OldGreeting = ""hello""
//      ^^^^^^^^^^^ definition 0.1.test `sg/pr218`/OldGreeting.
//                  kind Constant
//                  display_name OldGreeting
//                  signature_documentation
//                  > const OldGreeting untyped string = ""hello""
//                  documentation
//                  > Deprecated: Use NewGreeting instead.
//                  diagnostic Warning:
//                  > Deprecated
  
  const NewGreeting = ""hi""
//      ^^^^^^^^^^^ definition 0.1.test `sg/pr218`/NewGreeting.
//                  kind Constant
//                  display_name NewGreeting
//                  signature_documentation
//                  > const NewGreeting untyped string = ""hi""
  
  // Deprecated: Use Add instead.
//⌄ enclosing_range_start 0.1.test `sg/pr218`/OldAdd().
  func OldAdd(a, b int) int {
//     ^^^^^^ definition 0.1.test `sg/pr218`/OldAdd().
//            kind Function
//            display_name OldAdd
//            signature_documentation
//            > func OldAdd(a int, b int) int
//            documentation
//            > Deprecated: Use Add instead.
//            diagnostic Warning:
//            > Deprecated
//            ^ definition local 0
//              kind Variable
//              display_name a
//              signature_documentation
//              > var a int
//               ^ definition local 1
//                 kind Variable
//                 display_name b
//                 signature_documentation
//                 > var b int
   return a + b
//        ^ reference local 0
//            ^ reference local 1
  }
//⌃ enclosing_range_end 0.1.test `sg/pr218`/OldAdd().
  
//⌄ enclosing_range_start 0.1.test `sg/pr218`/Add().
  func Add(a, b int) int {
//     ^^^ definition 0.1.test `sg/pr218`/Add().
//         kind Function
//         display_name Add
//         signature_documentation
//         > func Add(a int, b int) int
//         ^ definition local 2
//           kind Variable
//           display_name a
//           signature_documentation
//           > var a int
//            ^ definition local 3
//              kind Variable
//              display_name b
//              signature_documentation
//              > var b int
   return a + b
//        ^ reference local 2
//            ^ reference local 3
  }
//⌃ enclosing_range_end 0.1.test `sg/pr218`/Add().
  
  // Deprecated: Use Server instead.
  type OldServer struct {
//     ^^^^^^^^^ definition 0.1.test `sg/pr218`/OldServer#
//               kind Struct
//               display_name OldServer
//               signature_documentation
//               > type OldServer struct {
//               >     Host string
//               >     Addr string
//               > }
//               documentation
//               > Deprecated: Use Server instead.
//               diagnostic Warning:
//               > Deprecated
   // Deprecated: Use Addr instead.
   Host string
// ^^^^ definition 0.1.test `sg/pr218`/OldServer#Host.
//      kind Field
//      display_name Host
//      signature_documentation
//      > struct field Host string
//      documentation
//      > Deprecated: Use Addr instead.
//      diagnostic Warning:
//      > Deprecated
   Addr string
// ^^^^ definition 0.1.test `sg/pr218`/OldServer#Addr.
//      kind Field
//      display_name Addr
//      signature_documentation
//      > struct field Addr string
  }
  
  type Server struct {
//     ^^^^^^ definition 0.1.test `sg/pr218`/Server#
//            kind Struct
//            display_name Server
//            signature_documentation
//            > type Server struct{ Addr string }
   Addr string
// ^^^^ definition 0.1.test `sg/pr218`/Server#Addr.
//      kind Field
//      display_name Addr
//      signature_documentation
//      > struct field Addr string
  }
  
//⌄ enclosing_range_start 0.1.test `sg/pr218`/UseDeprecated().
  func UseDeprecated() {
//     ^^^^^^^^^^^^^ definition 0.1.test `sg/pr218`/UseDeprecated().
//                   kind Function
//                   display_name UseDeprecated
//                   signature_documentation
//                   > func UseDeprecated()
   _ = OldGreeting
//     ^^^^^^^^^^^ reference 0.1.test `sg/pr218`/OldGreeting.
//                 diagnostic Warning:
//                 > Deprecated
   _ = NewGreeting
//     ^^^^^^^^^^^ reference 0.1.test `sg/pr218`/NewGreeting.
  
   _ = OldAdd(1, 2)
//     ^^^^^^ reference 0.1.test `sg/pr218`/OldAdd().
//            diagnostic Warning:
//            > Deprecated
   _ = Add(1, 2)
//     ^^^ reference 0.1.test `sg/pr218`/Add().
  
   _ = OldServer{}
//     ^^^^^^^^^ reference 0.1.test `sg/pr218`/OldServer#
//               diagnostic Warning:
//               > Deprecated
   _ = Server{}
//     ^^^^^^ reference 0.1.test `sg/pr218`/Server#
  }
//⌃ enclosing_range_end 0.1.test `sg/pr218`/UseDeprecated().
  
")].

(** The model, run on the input directory, gives the golden files of /repo. *)
Example snapshot_pr218 : snapshot input = Some golden.
Proof. vm_compute. reflexivity. Qed.
(** The directory meets the hypotheses of the theorems (Contract.scopes_contract_ok). *)
Example snapshot_pr218_contract : contract input = true ∧ scopesb input = true.
Proof. split; vm_compute; reflexivity. Qed.
