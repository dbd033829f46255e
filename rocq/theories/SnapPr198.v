(** Generated by tools/snapshot/emit.py from /repo/internal/testdata/snapshots/{input,output}/pr198: what packages.Load
    returns for that directory (syntax, types, modules; dependencies reduced to the declarations used), and the golden output. *)
From Coq Require Import Ascii String.
From stdpp Require Import prelude strings gmap.
From Verif Require Import GoStr Scip GoTypes Ast Packages Source Signature Snapshot Contract.
Open Scope string_scope.
Open Scope list_scope.
Definition k0 : tpkg := TPkg "io" [SEntry "Writer" true (TNamed (TName 47 (Some "io") "Writer") [])].
Definition o47 : obj := Obj 47 "Writer" (Some k0) 10000409 OTypeName (TNamed (TName 47 (Some "io") "Writer") []) None.
Definition o48 : obj := Obj 48 "Write" (Some k0) 10000428 (OFunc (Some (Some (TNamed (TName 47 (Some "io") "Writer") [])))) (TSig [(TSlice (TBasic BUint8 true))] [(TBasic BInt false); (TNamed (TName 21 None "error") [])] false) None.
Definition k1 : tpkg := TPkg "fmt" [SEntry "Fprint" false (TBasic BInvalid false); SEntry "Print" false (TBasic BInvalid false); SEntry "Printf" false (TBasic BInvalid false); SEntry "Println" false (TBasic BInvalid false); SEntry "Sprintf" false (TBasic BInvalid false); SEntry "Stringer" true (TNamed (TName 53 (Some "fmt") "Stringer") [])].
Definition o58 : obj := Obj 58 "Fprint" (Some k1) 10000343 (OFunc (Some None)) (TSig [(TNamed (TName 47 (Some "io") "Writer") []); (TSlice (TAlias (TName 20 None "any") (TInterface [] "")))] [(TBasic BInt false); (TNamed (TName 21 None "error") [])] true) None.
Definition o54 : obj := Obj 54 "Print" (Some k1) 10000160 (OFunc (Some None)) (TSig [(TSlice (TAlias (TName 20 None "any") (TInterface [] "")))] [(TBasic BInt false); (TNamed (TName 21 None "error") [])] true) None.
Definition o56 : obj := Obj 56 "Printf" (Some k1) 10000242 (OFunc (Some None)) (TSig [(TBasic BString false); (TSlice (TAlias (TName 20 None "any") (TInterface [] "")))] [(TBasic BInt false); (TNamed (TName 21 None "error") [])] true) None.
Definition o55 : obj := Obj 55 "Println" (Some k1) 10000200 (OFunc (Some None)) (TSig [(TSlice (TAlias (TName 20 None "any") (TInterface [] "")))] [(TBasic BInt false); (TNamed (TName 21 None "error") [])] true) None.
Definition o57 : obj := Obj 57 "Sprintf" (Some k1) 10000298 (OFunc (Some None)) (TSig [(TBasic BString false); (TSlice (TAlias (TName 20 None "any") (TInterface [] "")))] [(TBasic BString false)] true) None.
Definition o53 : obj := Obj 53 "Stringer" (Some k1) 10000116 OTypeName (TNamed (TName 53 (Some "fmt") "Stringer") []) None.
Definition o59 : obj := Obj 59 "String" (Some k1) 10000137 (OFunc (Some (Some (TNamed (TName 53 (Some "fmt") "Stringer") [])))) (TSig [] [(TBasic BString false)] false) None.
Definition k2 : tpkg := TPkg "github.com/example/dep" [SEntry "T" true (TNamed (TName 79 (Some "github.com/example/dep") "T") [])].
Definition o79 : obj := Obj 79 "T" (Some k2) 10000032 OTypeName (TNamed (TName 79 (Some "github.com/example/dep") "T") []) None.
Definition o80 : obj := Obj 80 "Bar" (Some k2) 10000056 (OFunc (Some (Some (TPointer (TNamed (TName 79 (Some "github.com/example/dep") "T") []))))) (TSig [] [] false) None.
(* pr198/pr198.go *)
Definition f4_0 : node := (NFile 1 false "" (Ident 1 "pr198" 9)
  [(NGenDecl 16 IMPORT "" [(NImportSpec 2 None 23 """github.com/example/dep""")]);
   (NGenDecl 291 TYPE "Foo is an interface defined downstream of the type that implements it.
The dep.T type (from a dependency) implements Foo, and scip-go should
emit an external symbol for dep.T with an IsImplementation relationship
pointing to Foo.
" [(NTypeSpec "" (Ident 3 "Foo" 296) (NFieldList []) (NInterfaceType 4 300 (NFieldList [(NField "" "" [(Ident 5 "Bar" 313)] (NFuncType 316 (NFieldList []) (NFieldList []) (NFieldList [])))])))]);
   (NFuncDecl "" 322 343 None (Ident 6 "UseFoo" 327) (NFuncType 322 (NFieldList []) (NFieldList [(NField "" "" [(Ident 7 "f" 334)] (NIdent (Ident 8 "Foo" 336)))]) (NFieldList [])) (Some (NBlockStmt 341 [])));
   (NFuncDecl "" 345 381 None (Ident 9 "Example" 350) (NFuncType 345 (NFieldList []) (NFieldList []) (NFieldList [])) (Some (NBlockStmt 360 [(NOther 363 [(NOther 363 [(NIdent (Ident 10 "UseFoo" 363)); (NUnaryExpr 370 (NOther 371 [(NSelectorExpr (NIdent (Ident 11 "dep" 371)) (Ident 12 "T" 375))]))])])])))]).
Definition k3 : tpkg := TPkg "sg/pr198" [SEntry "Example" false (TBasic BInvalid false); SEntry "Foo" true (TNamed (TName 83 (Some "sg/pr198") "Foo") []); SEntry "UseFoo" false (TBasic BInvalid false)].
Definition o83 : obj := Obj 83 "Foo" (Some k3) 296 OTypeName (TNamed (TName 83 (Some "sg/pr198") "Foo") []) None.
Definition o84 : obj := Obj 84 "UseFoo" (Some k3) 327 (OFunc (Some None)) (TSig [(TNamed (TName 83 (Some "sg/pr198") "Foo") [])] [] false) None.
Definition o85 : obj := Obj 85 "Example" (Some k3) 350 (OFunc (Some None)) (TSig [] [] false) None.
Definition o86 : obj := Obj 86 "Bar" (Some k3) 313 (OFunc (Some (Some (TNamed (TName 83 (Some "sg/pr198") "Foo") [])))) (TSig [] [] false) None.
Definition o87 : obj := Obj 87 "f" (Some k3) 334 (OVar false) (TNamed (TName 83 (Some "sg/pr198") "Foo") []) None.
Definition o82 : obj := Obj 82 "dep" (Some k3) 23 (OPkgName "github.com/example/dep") (TBasic BInvalid false) None.
Definition defs4 : list (nat * obj) := [(3, o83); (6, o84); (9, o85); (5, o86); (7, o87)].
Definition uses4 : list (nat * obj) := [(8, o83); (10, o84); (11, o82); (12, o79)].
Definition canon4 : list (nat * hty) := [(4, (HInterface false [("Bar", (HSig [] [] [] false))] []))].
Definition pkgnames4 : list (nat * obj) := [(2, o82)].
Definition cases4 : list obj := [].
Definition o22 : obj := Obj 22 "Error" None 0 (OFunc (Some (Some (TNamed (TName 21 None "error") [])))) (TSig [] [(TBasic BString false)] false) None.
Definition hobjs : list (nat * hobj) := [(83, HObj "Foo" (Some (HPkg "sg/pr198" "pr198")) true (HTypeName (DDefined [] (HInterface false [("Bar", (HSig [] [] [] false))] []))));
  (84, HObj "UseFoo" (Some (HPkg "sg/pr198" "pr198")) true (HFunc None (HSig [] [("f", (HNamed (HName (Some (HPkg "sg/pr198" "pr198")) "Foo") [] []))] [] false)));
  (85, HObj "Example" (Some (HPkg "sg/pr198" "pr198")) true (HFunc None (HSig [] [] [] false)));
  (86, HObj "Bar" (Some (HPkg "sg/pr198" "pr198")) false (HFunc (Some (HNamed (HName (Some (HPkg "sg/pr198" "pr198")) "Foo") [] [])) (HSig [] [] [] false)));
  (87, HObj "f" (Some (HPkg "sg/pr198" "pr198")) false (HVar false (HNamed (HName (Some (HPkg "sg/pr198" "pr198")) "Foo") [] [])))].
Definition unders : list (nat * ty) := [(47, (TInterface [("Write", (TSig [(TSlice (TBasic BUint8 true))] [(TBasic BInt false); (TNamed (TName 21 None "error") [])] false))] ""));
  (21, (TInterface [("Error", (TSig [] [(TBasic BString false)] false))] ""));
  (53, (TInterface [("String", (TSig [] [(TBasic BString false)] false))] ""));
  (79, (TStruct []));
  (83, (TInterface [("Bar", (TSig [] [] false))] ""))].
Definition msets : list (nat * (list obj * list obj)) := [(47, ([o48], []));
  (53, ([o59], []));
  (79, ([], [o80]));
  (83, ([o86], []));
  (21, ([o22], []))].
Definition digests : list (string * string) := [("interface{Bar()}", "cd5655863b3e11e9")].
Definition formatted : list (string * string) := [("package p

type _ interface{Bar()}
", "package p

type _ interface{ Bar() }
")].
Definition sources : list src := [Src "/repo/internal/testdata/snapshots/input/pr198/pr198.go" 1 "package pr198

import ""github.com/example/dep""

// Foo is an interface defined downstream of the type that implements it.
// The dep.T type (from a dependency) implements Foo, and scip-go should
// emit an external symbol for dep.T with an IsImplementation relationship
// pointing to Foo.
type Foo interface {
	Bar()
}

func UseFoo(f Foo) {}

func Example() {
	UseFoo(&dep.T{})
}
" []].
Definition gomods : list (string * string) := [("/repo/internal/testdata/snapshots/input/pr198/dep/go.mod", "github.com/example/dep")].
Definition p1 : gpkg * option raw := (GPkg 1 "io" "io" None [] [] (Some k0) None, None).
Definition p2 : gpkg * option raw := (GPkg 2 "fmt" "fmt" None [("io", 1)] [] (Some k1) None, None).
Definition p3 : gpkg * option raw := (GPkg 3 "github.com/example/dep" "dep" (Some (GMod "github.com/example/dep" "v0.0.0" "/repo/internal/testdata/snapshots/input/pr198/dep" "/repo/internal/testdata/snapshots/input/pr198/dep/go.mod" (Some (GMod "./dep" "" "/repo/internal/testdata/snapshots/input/pr198/dep" "/repo/internal/testdata/snapshots/input/pr198/dep/go.mod" None)))) [("fmt", 2)] [] (Some k2) None, None).
Definition p4 : gpkg * option raw := (GPkg 4 "sg/pr198" "pr198" (Some (GMod "sg/pr198" "" "/repo/internal/testdata/snapshots/input/pr198" "/repo/internal/testdata/snapshots/input/pr198/go.mod" None)) [("github.com/example/dep", 3)] [f4_0] (Some k3) None, (Some (Raw defs4 uses4 pkgnames4 cases4 canon4))).
Definition packages : list (gpkg * option raw) := [p1; p2; p3; p4].
Definition roots : list nat := [4].
Definition scopes : list (nat * list obj) := [(1, [o47]); (2, [o58; o54; o56; o55; o57; o53]); (3, [o79])].
Definition levels : list nat := [83].
Definition input : input := Input "/repo/internal/testdata/snapshots/input/pr198" "sg/pr198" false sources packages roots gomods digests formatted hobjs unders msets scopes levels.
Definition golden : list (string * string) := [("external_symbols.txt", "github.com/example/dep 0.1.test `github.com/example/dep`/T#
  relationship 0.1.test `sg/pr198`/Foo# implementation");
  ("pr198.go", "  package pr198
//        ^^^^^ definition 0.1.test `sg/pr198`/
//              kind Package
//              display_name pr198
//              signature_documentation
//              > package pr198
  
  import ""github.com/example/dep""
//        ^^^^^^^^^^^^^^^^^^^^^^ reference github.com/example/dep 0.1.test `github.com/example/dep`/
  
  // Foo is an interface defined downstream of the type that implements it.
  // The dep.T type (from a dependency) implements Foo, and scip-go should
  // emit an external symbol for dep.T with an IsImplementation relationship
  // pointing to Foo.
  type Foo interface {
//     ^^^ definition 0.1.test `sg/pr198`/Foo#
//         kind Interface
//         display_name Foo
//         signature_documentation
//         > type Foo interface{ Bar() }
//         documentation
//         > Foo is an interface defined downstream of the type that implements it.
//         > The dep.T type (from a dependency) implements Foo, and scip-go should
//         > emit an external symbol for dep.T with an IsImplementation relationship
//         > pointing to Foo.
   Bar()
// ^^^ definition 0.1.test `sg/pr198`/Foo#Bar.
//     kind MethodSpecification
//     display_name Bar
//     signature_documentation
//     > func (Foo).Bar()
  }
  
//⌄ enclosing_range_start 0.1.test `sg/pr198`/UseFoo().
  func UseFoo(f Foo) {}
//     ^^^^^^ definition 0.1.test `sg/pr198`/UseFoo().
//            kind Function
//            display_name UseFoo
//            signature_documentation
//            > func UseFoo(f Foo)
//            ^ definition local 0
//              kind Variable
//              display_name f
//              signature_documentation
//              > var f Foo
//              ^^^ reference 0.1.test `sg/pr198`/Foo#
//                    ⌃ enclosing_range_end 0.1.test `sg/pr198`/UseFoo().
  
//⌄ enclosing_range_start 0.1.test `sg/pr198`/Example().
  func Example() {
//     ^^^^^^^ definition 0.1.test `sg/pr198`/Example().
//             kind Function
//             display_name Example
//             signature_documentation
//             > func Example()
   UseFoo(&dep.T{})
// ^^^^^^ reference 0.1.test `sg/pr198`/UseFoo().
//         ^^^ reference github.com/example/dep 0.1.test `github.com/example/dep`/
//             ^ reference github.com/example/dep 0.1.test `github.com/example/dep`/T#
  }
//⌃ enclosing_range_end 0.1.test `sg/pr198`/Example().
  
")].

(** The model, run on the input directory, gives the golden files of /repo. *)
Example snapshot_pr198 : snapshot input = Some golden.
Proof. vm_compute. reflexivity. Qed.
(** The directory meets the hypotheses of the theorems (Contract.scopes_contract_ok). *)
Example snapshot_pr198_contract : contract input = true ∧ scopesb input = true.
Proof. split; vm_compute; reflexivity. Qed.
