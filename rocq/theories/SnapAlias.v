(** Generated by tools/snapshot/emit.py from /repo/internal/testdata/snapshots/{input,output}/alias: what packages.Load
    returns for that directory (syntax, types, modules; dependencies reduced to the declarations used), and the golden output. *)
From Coq Require Import Ascii String.
From stdpp Require Import prelude strings gmap.
From Verif Require Import GoStr Scip GoTypes Ast Packages Source Signature Snapshot Contract.
Open Scope string_scope.
Open Scope list_scope.
(* alias/main.go *)
Definition f1_0 : node := (NFile 1 false "" (Ident 1 "main" 9)
  [(NGenDecl 125 TYPE "Check that we don't panic
Copied from https://github.com/golang/go/issues/68877#issuecomment-2290000187
" [(NTypeSpec "" (Ident 2 "T" 133) (NFieldList []) (NStructType 3 135 (NFieldList []))); (NTypeSpec "" (Ident 4 "U" 145) (NFieldList []) (NIdent (Ident 5 "T" 149))); (NTypeSpec "" (Ident 6 "V" 152) (NFieldList []) (NIdent (Ident 7 "U" 156))); (NTypeSpec "" (Ident 8 "S" 159) (NFieldList []) (NIdent (Ident 9 "U" 161))); (NTypeSpec "" (Ident 10 "Z" 164) (NFieldList []) (NIdent (Ident 11 "int32" 166)))]);
   (NFuncDecl "" 175 189 None (Ident 12 "f" 180) (NFuncType 175 (NFieldList []) (NFieldList [(NField "" "" [(Ident 13 "u" 182)] (NIdent (Ident 14 "U" 184)))]) (NFieldList [])) (Some (NBlockStmt 187 [])))]).
Definition k0 : tpkg := TPkg "github.com/scip-code/scip-go/internal/testdata/snapshots/input/alias" [SEntry "S" true (TNamed (TName 50 (Some "github.com/scip-code/scip-go/internal/testdata/snapshots/input/alias") "S") []); SEntry "T" true (TNamed (TName 47 (Some "github.com/scip-code/scip-go/internal/testdata/snapshots/input/alias") "T") []); SEntry "U" true (TAlias (TName 48 (Some "github.com/scip-code/scip-go/internal/testdata/snapshots/input/alias") "U") (TNamed (TName 47 (Some "github.com/scip-code/scip-go/internal/testdata/snapshots/input/alias") "T") [])); SEntry "V" true (TAlias (TName 49 (Some "github.com/scip-code/scip-go/internal/testdata/snapshots/input/alias") "V") (TAlias (TName 48 (Some "github.com/scip-code/scip-go/internal/testdata/snapshots/input/alias") "U") (TNamed (TName 47 (Some "github.com/scip-code/scip-go/internal/testdata/snapshots/input/alias") "T") []))); SEntry "Z" true (TNamed (TName 51 (Some "github.com/scip-code/scip-go/internal/testdata/snapshots/input/alias") "Z") []); SEntry "f" false (TBasic BInvalid false)].
Definition o47 : obj := Obj 47 "T" (Some k0) 133 OTypeName (TNamed (TName 47 (Some "github.com/scip-code/scip-go/internal/testdata/snapshots/input/alias") "T") []) None.
Definition o48 : obj := Obj 48 "U" (Some k0) 145 OTypeName (TAlias (TName 48 (Some "github.com/scip-code/scip-go/internal/testdata/snapshots/input/alias") "U") (TNamed (TName 47 (Some "github.com/scip-code/scip-go/internal/testdata/snapshots/input/alias") "T") [])) None.
Definition o49 : obj := Obj 49 "V" (Some k0) 152 OTypeName (TAlias (TName 49 (Some "github.com/scip-code/scip-go/internal/testdata/snapshots/input/alias") "V") (TAlias (TName 48 (Some "github.com/scip-code/scip-go/internal/testdata/snapshots/input/alias") "U") (TNamed (TName 47 (Some "github.com/scip-code/scip-go/internal/testdata/snapshots/input/alias") "T") []))) None.
Definition o50 : obj := Obj 50 "S" (Some k0) 159 OTypeName (TNamed (TName 50 (Some "github.com/scip-code/scip-go/internal/testdata/snapshots/input/alias") "S") []) None.
Definition o51 : obj := Obj 51 "Z" (Some k0) 164 OTypeName (TNamed (TName 51 (Some "github.com/scip-code/scip-go/internal/testdata/snapshots/input/alias") "Z") []) None.
Definition o52 : obj := Obj 52 "f" (Some k0) 180 (OFunc (Some None)) (TSig [(TAlias (TName 48 (Some "github.com/scip-code/scip-go/internal/testdata/snapshots/input/alias") "U") (TNamed (TName 47 (Some "github.com/scip-code/scip-go/internal/testdata/snapshots/input/alias") "T") []))] [] false) None.
Definition o53 : obj := Obj 53 "u" (Some k0) 182 (OVar false) (TAlias (TName 48 (Some "github.com/scip-code/scip-go/internal/testdata/snapshots/input/alias") "U") (TNamed (TName 47 (Some "github.com/scip-code/scip-go/internal/testdata/snapshots/input/alias") "T") [])) None.
Definition o5 : obj := Obj 5 "int32" None 0 OTypeName (TBasic BInt32 false) None.
Definition defs1 : list (nat * obj) := [(2, o47); (4, o48); (6, o49); (8, o50); (10, o51); (12, o52); (13, o53)].
Definition uses1 : list (nat * obj) := [(5, o47); (7, o48); (9, o48); (11, o5); (14, o48)].
Definition canon1 : list (nat * hty) := [(3, (HStruct []))].
Definition pkgnames1 : list (nat * obj) := [].
Definition cases1 : list obj := [].
Definition hobjs : list (nat * hobj) := [(47, HObj "T" (Some (HPkg "github.com/scip-code/scip-go/internal/testdata/snapshots/input/alias" "main")) true (HTypeName (DDefined [] (HStruct []))));
  (48, HObj "U" (Some (HPkg "github.com/scip-code/scip-go/internal/testdata/snapshots/input/alias" "main")) true (HTypeName (DAlias [] (HNamed (HName (Some (HPkg "github.com/scip-code/scip-go/internal/testdata/snapshots/input/alias" "main")) "T") [] []))));
  (49, HObj "V" (Some (HPkg "github.com/scip-code/scip-go/internal/testdata/snapshots/input/alias" "main")) true (HTypeName (DAlias [] (HNamed (HName (Some (HPkg "github.com/scip-code/scip-go/internal/testdata/snapshots/input/alias" "main")) "U") [] []))));
  (50, HObj "S" (Some (HPkg "github.com/scip-code/scip-go/internal/testdata/snapshots/input/alias" "main")) true (HTypeName (DDefined [] (HStruct []))));
  (51, HObj "Z" (Some (HPkg "github.com/scip-code/scip-go/internal/testdata/snapshots/input/alias" "main")) true (HTypeName (DDefined [] (HBasic "int32"))));
  (52, HObj "f" (Some (HPkg "github.com/scip-code/scip-go/internal/testdata/snapshots/input/alias" "main")) true (HFunc None (HSig [] [("u", (HNamed (HName (Some (HPkg "github.com/scip-code/scip-go/internal/testdata/snapshots/input/alias" "main")) "U") [] []))] [] false)));
  (53, HObj "u" (Some (HPkg "github.com/scip-code/scip-go/internal/testdata/snapshots/input/alias" "main")) false (HVar false (HNamed (HName (Some (HPkg "github.com/scip-code/scip-go/internal/testdata/snapshots/input/alias" "main")) "U") [] [])))].
Definition unders : list (nat * ty) := [(50, (TStruct []));
  (47, (TStruct []));
  (51, (TBasic BInt32 false))].
Definition msets : list (nat * (list obj * list obj)) := [(47, ([], []));
  (50, ([], []));
  (51, ([], []))].
Definition digests : list (string * string) := [("struct{}", "0d0ad1bdf1affd9c")].
Definition formatted : list (string * string) := [("package p

type _ struct{}
", "package p

type _ struct{}
")].
Definition sources : list src := [Src "/repo/internal/testdata/snapshots/input/alias/main.go" 1 "package main

// Check that we don't panic
// Copied from https://github.com/golang/go/issues/68877#issuecomment-2290000187
type (
	T struct{}
	U = T
	V = U
	S U
	Z int32
)

func f(u U) {}
" []].
Definition gomods : list (string * string) := [].
Definition p1 : gpkg * option raw := (GPkg 1 "github.com/scip-code/scip-go/internal/testdata/snapshots/input/alias" "main" (Some (GMod "github.com/scip-code/scip-go" "" "/repo" "/repo/go.mod" None)) [] [f1_0] (Some k0) None, (Some (Raw defs1 uses1 pkgnames1 cases1 canon1))).
Definition packages : list (gpkg * option raw) := [p1].
Definition roots : list nat := [1].
Definition scopes : list (nat * list obj) := [].
Definition levels : list nat := [47; 50; 51].
Definition input : input := Input "/repo/internal/testdata/snapshots/input/alias" "sg/alias" false sources packages roots gomods digests formatted hobjs unders msets scopes levels.
Definition golden : list (string * string) := [("main.go", "  package main
//        ^^^^ definition github.com/scip-code/scip-go 0.1.test `github.com/scip-code/scip-go/internal/testdata/snapshots/input/alias`/
//             kind Package
//             display_name main
//             signature_documentation
//             > package main
  
  // Check that we don't panic
  // Copied from https://github.com/golang/go/issues/68877#issuecomment-2290000187
  type (
   T struct{}
// ^ definition github.com/scip-code/scip-go 0.1.test `github.com/scip-code/scip-go/internal/testdata/snapshots/input/alias`/T#
//   kind Struct
//   display_name T
//   signature_documentation
//   > type T struct{}
//   documentation
//   > Check that we don't panic
//   > Copied from https://github.com/golang/go/issues/68877#issuecomment-2290000187
   U = T
// ^ definition github.com/scip-code/scip-go 0.1.test `github.com/scip-code/scip-go/internal/testdata/snapshots/input/alias`/U#
//   kind TypeAlias
//   display_name U
//   signature_documentation
//   > type U = T
//   documentation
//   > Check that we don't panic
//   > Copied from https://github.com/golang/go/issues/68877#issuecomment-2290000187
//     ^ reference github.com/scip-code/scip-go 0.1.test `github.com/scip-code/scip-go/internal/testdata/snapshots/input/alias`/T#
   V = U
// ^ definition github.com/scip-code/scip-go 0.1.test `github.com/scip-code/scip-go/internal/testdata/snapshots/input/alias`/V#
//   kind TypeAlias
//   display_name V
//   signature_documentation
//   > type V = U
//   documentation
//   > Check that we don't panic
//   > Copied from https://github.com/golang/go/issues/68877#issuecomment-2290000187
//     ^ reference github.com/scip-code/scip-go 0.1.test `github.com/scip-code/scip-go/internal/testdata/snapshots/input/alias`/U#
   S U
// ^ definition github.com/scip-code/scip-go 0.1.test `github.com/scip-code/scip-go/internal/testdata/snapshots/input/alias`/S#
//   kind Struct
//   display_name S
//   signature_documentation
//   > type S struct{}
//   documentation
//   > Check that we don't panic
//   > Copied from https://github.com/golang/go/issues/68877#issuecomment-2290000187
//   ^ reference github.com/scip-code/scip-go 0.1.test `github.com/scip-code/scip-go/internal/testdata/snapshots/input/alias`/U#
   Z int32
// ^ definition github.com/scip-code/scip-go 0.1.test `github.com/scip-code/scip-go/internal/testdata/snapshots/input/alias`/Z#
//   kind Type
//   display_name Z
//   signature_documentation
//   > type Z int32
//   documentation
//   > Check that we don't panic
//   > Copied from https://github.com/golang/go/issues/68877#issuecomment-2290000187
  )
  
//⌄ enclosing_range_start github.com/scip-code/scip-go 0.1.test `github.com/scip-code/scip-go/internal/testdata/snapshots/input/alias`/f().
  func f(u U) {}
//     ^ definition github.com/scip-code/scip-go 0.1.test `github.com/scip-code/scip-go/internal/testdata/snapshots/input/alias`/f().
//       kind Function
//       display_name f
//       signature_documentation
//       > func f(u U)
//       ^ definition local 0
//         kind Variable
//         display_name u
//         signature_documentation
//         > var u U
//         ^ reference github.com/scip-code/scip-go 0.1.test `github.com/scip-code/scip-go/internal/testdata/snapshots/input/alias`/U#
//             ⌃ enclosing_range_end github.com/scip-code/scip-go 0.1.test `github.com/scip-code/scip-go/internal/testdata/snapshots/input/alias`/f().
  
")].

(** The model, run on the input directory, gives the golden files of /repo. *)
Example snapshot_alias : snapshot input = Some golden.
Proof. vm_compute. reflexivity. Qed.
(** The directory meets the hypotheses of the theorems (Contract.scopes_contract_ok). *)
Example snapshot_alias_contract : contract input = true ∧ scopesb input = true.
Proof. split; vm_compute; reflexivity. Qed.
