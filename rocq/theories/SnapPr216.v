(** Generated by tools/snapshot/emit.py from /repo/internal/testdata/snapshots/{input,output}/pr216: what packages.Load
    returns for that directory (syntax, types, modules; dependencies reduced to the declarations used), and the golden output. *)
From Coq Require Import Ascii String.
From stdpp Require Import prelude strings gmap.
From Verif Require Import GoStr Scip GoTypes Ast Packages Source Signature Snapshot Contract.
Open Scope string_scope.
Open Scope list_scope.
Definition k0 : tpkg := TPkg "io" [SEntry "Writer" true (TNamed (TName 47 (Some "io") "Writer") [])].
Definition o47 : obj := Obj 47 "Writer" (Some k0) 10000322 OTypeName (TNamed (TName 47 (Some "io") "Writer") []) None.
Definition o48 : obj := Obj 48 "Write" (Some k0) 10000341 (OFunc (Some (Some (TNamed (TName 47 (Some "io") "Writer") [])))) (TSig [(TSlice (TBasic BUint8 true))] [(TBasic BInt false); (TNamed (TName 21 None "error") [])] false) None.
Definition k1 : tpkg := TPkg "fmt" [SEntry "Fprint" false (TBasic BInvalid false); SEntry "Print" false (TBasic BInvalid false); SEntry "Printf" false (TBasic BInvalid false); SEntry "Println" false (TBasic BInvalid false); SEntry "Sprintf" false (TBasic BInvalid false); SEntry "Stringer" true (TNamed (TName 53 (Some "fmt") "Stringer") [])].
Definition o58 : obj := Obj 58 "Fprint" (Some k1) 10000256 (OFunc (Some None)) (TSig [(TNamed (TName 47 (Some "io") "Writer") []); (TSlice (TAlias (TName 20 None "any") (TInterface [] "")))] [(TBasic BInt false); (TNamed (TName 21 None "error") [])] true) None.
Definition o54 : obj := Obj 54 "Print" (Some k1) 10000073 (OFunc (Some None)) (TSig [(TSlice (TAlias (TName 20 None "any") (TInterface [] "")))] [(TBasic BInt false); (TNamed (TName 21 None "error") [])] true) None.
Definition o56 : obj := Obj 56 "Printf" (Some k1) 10000155 (OFunc (Some None)) (TSig [(TBasic BString false); (TSlice (TAlias (TName 20 None "any") (TInterface [] "")))] [(TBasic BInt false); (TNamed (TName 21 None "error") [])] true) None.
Definition o55 : obj := Obj 55 "Println" (Some k1) 10000113 (OFunc (Some None)) (TSig [(TSlice (TAlias (TName 20 None "any") (TInterface [] "")))] [(TBasic BInt false); (TNamed (TName 21 None "error") [])] true) None.
Definition o57 : obj := Obj 57 "Sprintf" (Some k1) 10000211 (OFunc (Some None)) (TSig [(TBasic BString false); (TSlice (TAlias (TName 20 None "any") (TInterface [] "")))] [(TBasic BString false)] true) None.
Definition o53 : obj := Obj 53 "Stringer" (Some k1) 10000029 OTypeName (TNamed (TName 53 (Some "fmt") "Stringer") []) None.
Definition o59 : obj := Obj 59 "String" (Some k1) 10000050 (OFunc (Some (Some (TNamed (TName 53 (Some "fmt") "Stringer") [])))) (TSig [] [(TBasic BString false)] false) None.
(* pr216/pr216.go *)
Definition f3_0 : node := (NFile 1 false "" (Ident 1 "pr216" 9)
  [(NGenDecl 16 IMPORT "" [(NImportSpec 2 None 23 """fmt""")]);
   (NGenDecl 30 CONST "" [(NValueSpec "" "" [(Ident 3 "Greeting" 36)] None [])]);
   (NFuncDecl "" 56 96 None (Ident 4 "UseFmt" 61) (NFuncType 56 (NFieldList []) (NFieldList []) (NFieldList [])) (Some (NBlockStmt 70 [(NOther 73 [(NOther 73 [(NSelectorExpr (NIdent (Ident 5 "fmt" 73)) (Ident 6 "Println" 77)); (NIdent (Ident 7 "Greeting" 85))])])])))]).
Definition k2 : tpkg := TPkg "sg/pr216" [SEntry "Greeting" false (TBasic BInvalid false); SEntry "UseFmt" false (TBasic BInvalid false)].
Definition o79 : obj := Obj 79 "Greeting" (Some k2) 36 OConst (TBasic BUntypedString false) None.
Definition o80 : obj := Obj 80 "UseFmt" (Some k2) 61 (OFunc (Some None)) (TSig [] [] false) None.
Definition o78 : obj := Obj 78 "fmt" (Some k2) 23 (OPkgName "fmt") (TBasic BInvalid false) None.
Definition defs3 : list (nat * obj) := [(3, o79); (4, o80)].
Definition uses3 : list (nat * obj) := [(5, o78); (6, o55); (7, o79)].
Definition canon3 : list (nat * hty) := [].
Definition pkgnames3 : list (nat * obj) := [(2, o78)].
Definition cases3 : list obj := [].
Definition o22 : obj := Obj 22 "Error" None 0 (OFunc (Some (Some (TNamed (TName 21 None "error") [])))) (TSig [] [(TBasic BString false)] false) None.
Definition hobjs : list (nat * hobj) := [(79, HObj "Greeting" (Some (HPkg "sg/pr216" "pr216")) true (HConst (HBasic "untyped string") """hello"""));
  (80, HObj "UseFmt" (Some (HPkg "sg/pr216" "pr216")) true (HFunc None (HSig [] [] [] false)))].
Definition unders : list (nat * ty) := [(47, (TInterface [("Write", (TSig [(TSlice (TBasic BUint8 true))] [(TBasic BInt false); (TNamed (TName 21 None "error") [])] false))] ""));
  (21, (TInterface [("Error", (TSig [] [(TBasic BString false)] false))] ""));
  (53, (TInterface [("String", (TSig [] [(TBasic BString false)] false))] ""))].
Definition msets : list (nat * (list obj * list obj)) := [(47, ([o48], []));
  (53, ([o59], []));
  (21, ([o22], []))].
Definition digests : list (string * string) := [].
Definition formatted : list (string * string) := [].
Definition sources : list src := [Src "/repo/internal/testdata/snapshots/input/pr216/pr216.go" 1 "package pr216

import ""fmt""

const Greeting = ""hello""

func UseFmt() {
	fmt.Println(Greeting)
}
" []].
Definition gomods : list (string * string) := [].
Definition p1 : gpkg * option raw := (GPkg 1 "io" "io" None [] [] (Some k0) None, None).
Definition p2 : gpkg * option raw := (GPkg 2 "fmt" "fmt" None [("io", 1)] [] (Some k1) None, None).
Definition p3 : gpkg * option raw := (GPkg 3 "sg/pr216" "pr216" None [("fmt", 2)] [f3_0] (Some k2) None, (Some (Raw defs3 uses3 pkgnames3 cases3 canon3))).
Definition packages : list (gpkg * option raw) := [p1; p2; p3].
Definition roots : list nat := [3].
Definition scopes : list (nat * list obj) := [(1, [o47]); (2, [o58; o54; o56; o55; o57; o53])].
Definition levels : list nat := [].
Definition input : input := Input "/repo/internal/testdata/snapshots/input/pr216" "sg/pr216" true sources packages roots gomods digests formatted hobjs unders msets scopes levels.
Definition golden : list (string * string) := [("pr216.go", "  package pr216
//        ^^^^^ definition 0.1.test `sg/pr216`/
//              kind Package
//              display_name pr216
//              signature_documentation
//              > package pr216
  
  import ""fmt""
//        ^^^ reference 0.1.test fmt/
  
  const Greeting = ""hello""
//      ^^^^^^^^ definition 0.1.test `sg/pr216`/Greeting.
//               kind Constant
//               display_name Greeting
//               signature_documentation
//               > const Greeting untyped string = ""hello""
  
//⌄ enclosing_range_start 0.1.test `sg/pr216`/UseFmt().
  func UseFmt() {
//     ^^^^^^ definition 0.1.test `sg/pr216`/UseFmt().
//            kind Function
//            display_name UseFmt
//            signature_documentation
//            > func UseFmt()
   fmt.Println(Greeting)
// ^^^ reference 0.1.test fmt/
//     ^^^^^^^ reference 0.1.test fmt/Println().
//             ^^^^^^^^ reference 0.1.test `sg/pr216`/Greeting.
  }
//⌃ enclosing_range_end 0.1.test `sg/pr216`/UseFmt().
  
")].

(** The model, run on the input directory, gives the golden files of /repo. *)
Example snapshot_pr216 : snapshot input = Some golden.
Proof. vm_compute. reflexivity. Qed.
(** The directory meets the hypotheses of the theorems (Contract.scopes_contract_ok). *)
Example snapshot_pr216_contract : contract input = true ∧ scopesb input = true.
Proof. split; vm_compute; reflexivity. Qed.
