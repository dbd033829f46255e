(** Generated by tools/snapshot/emit.py from /repo/internal/testdata/snapshots/{input,output}/pr206: what packages.Load
    returns for that directory (syntax, types, modules; dependencies reduced to the declarations used), and the golden output. *)
From Coq Require Import Ascii String.
From stdpp Require Import prelude strings gmap.
From Verif Require Import GoStr Scip GoTypes Ast Packages Source Signature Snapshot Contract.
Open Scope string_scope.
Open Scope list_scope.
(* pr206/const_docs.go *)
Definition f1_0 : node := (NFile 1 false "" (Ident 1 "pr206" 9)
  [(NGenDecl 50 CONST "Block doc for the const group.
" [(NValueSpec "BlockConst1 is a multi-line doc.
It spans two lines.
" "" [(Ident 2 "BlockConst1" 120)] None []); (NValueSpec "" "" [(Ident 3 "BlockConstNoDoc" 138)] None []); (NValueSpec "" "trailing comment on const
" [(Ident 4 "BlockConstTrailing" 160)] None [])]);
   (NGenDecl 215 CONST "" [(NValueSpec "OrphanConst lives in a block with no block-level doc.
" "" [(Ident 5 "OrphanConst" 282)] None [])])]).
(* pr206/embedded_field_docs.go *)
Definition f1_1 : node := (NFile 302 false "" (Ident 6 "pr206" 310)
  [(NGenDecl 317 TYPE "" [(NTypeSpec "" (Ident 7 "Base" 322) (NFieldList []) (NStructType 8 327 (NFieldList [])))]);
   (NGenDecl 337 TYPE "" [(NTypeSpec "" (Ident 9 "Container" 342) (NFieldList []) (NStructType 10 352 (NFieldList [(NField "Base is embedded to inherit shared fields.
" "" [] (NIdent (Ident 11 "Base" 409)))])))])]).
(* pr206/interface_method_docs.go *)
Definition f1_2 : node := (NFile 417 false "" (Ident 12 "pr206" 425)
  [(NGenDecl 432 TYPE "" [(NTypeSpec "" (Ident 13 "Doer" 437) (NFieldList []) (NInterfaceType 14 442 (NFieldList [(NField "Do performs the action and returns an error if it fails.
" "" [(Ident 15 "Do" 516)] (NFuncType 518 (NFieldList []) (NFieldList []) (NFieldList [(NField "" "" [] (NIdent (Ident 16 "error" 521)))])))])))])]).
Definition k0 : tpkg := TPkg "sg/pr206" [SEntry "Base" true (TNamed (TName 51 (Some "sg/pr206") "Base") []); SEntry "BlockConst1" false (TBasic BInvalid false); SEntry "BlockConstNoDoc" false (TBasic BInvalid false); SEntry "BlockConstTrailing" false (TBasic BInvalid false); SEntry "Container" true (TNamed (TName 52 (Some "sg/pr206") "Container") []); SEntry "Doer" true (TNamed (TName 53 (Some "sg/pr206") "Doer") []); SEntry "OrphanConst" false (TBasic BInvalid false)].
Definition o47 : obj := Obj 47 "BlockConst1" (Some k0) 120 OConst (TBasic BUntypedInt false) None.
Definition o48 : obj := Obj 48 "BlockConstNoDoc" (Some k0) 138 OConst (TBasic BUntypedInt false) None.
Definition o49 : obj := Obj 49 "BlockConstTrailing" (Some k0) 160 OConst (TBasic BUntypedInt false) None.
Definition o50 : obj := Obj 50 "OrphanConst" (Some k0) 282 OConst (TBasic BUntypedInt false) None.
Definition o51 : obj := Obj 51 "Base" (Some k0) 322 OTypeName (TNamed (TName 51 (Some "sg/pr206") "Base") []) None.
Definition o52 : obj := Obj 52 "Container" (Some k0) 342 OTypeName (TNamed (TName 52 (Some "sg/pr206") "Container") []) None.
Definition o53 : obj := Obj 53 "Doer" (Some k0) 437 OTypeName (TNamed (TName 53 (Some "sg/pr206") "Doer") []) None.
Definition o54 : obj := Obj 54 "Base" (Some k0) 409 (OVar true) (TNamed (TName 51 (Some "sg/pr206") "Base") []) None.
Definition o55 : obj := Obj 55 "Do" (Some k0) 516 (OFunc (Some (Some (TNamed (TName 53 (Some "sg/pr206") "Doer") [])))) (TSig [] [(TNamed (TName 21 None "error") [])] false) None.
Definition o21 : obj := Obj 21 "error" None 0 OTypeName (TNamed (TName 21 None "error") []) None.
Definition defs1 : list (nat * obj) := [(2, o47); (3, o48); (4, o49); (5, o50); (7, o51); (9, o52); (13, o53); (11, o54); (15, o55)].
Definition uses1 : list (nat * obj) := [(11, o51); (16, o21)].
Definition canon1 : list (nat * hty) := [(8, (HStruct [])); (10, (HStruct [("Base", true, "", (HNamed (HName (Some (HPkg "sg/pr206" "pr206")) "Base") [] []))])); (14, (HInterface false [("Do", (HSig [] [] [("", (HNamed (HName None "error") [] []))] false))] []))].
Definition pkgnames1 : list (nat * obj) := [].
Definition cases1 : list obj := [].
Definition o22 : obj := Obj 22 "Error" None 0 (OFunc (Some (Some (TNamed (TName 21 None "error") [])))) (TSig [] [(TBasic BString false)] false) None.
Definition hobjs : list (nat * hobj) := [(47, HObj "BlockConst1" (Some (HPkg "sg/pr206" "pr206")) true (HConst (HBasic "untyped int") "1"));
  (48, HObj "BlockConstNoDoc" (Some (HPkg "sg/pr206" "pr206")) true (HConst (HBasic "untyped int") "2"));
  (49, HObj "BlockConstTrailing" (Some (HPkg "sg/pr206" "pr206")) true (HConst (HBasic "untyped int") "3"));
  (50, HObj "OrphanConst" (Some (HPkg "sg/pr206" "pr206")) true (HConst (HBasic "untyped int") "99"));
  (51, HObj "Base" (Some (HPkg "sg/pr206" "pr206")) true (HTypeName (DDefined [] (HStruct []))));
  (52, HObj "Container" (Some (HPkg "sg/pr206" "pr206")) true (HTypeName (DDefined [] (HStruct [("Base", true, "", (HNamed (HName (Some (HPkg "sg/pr206" "pr206")) "Base") [] []))]))));
  (53, HObj "Doer" (Some (HPkg "sg/pr206" "pr206")) true (HTypeName (DDefined [] (HInterface false [("Do", (HSig [] [] [("", (HNamed (HName None "error") [] []))] false))] []))));
  (54, HObj "Base" (Some (HPkg "sg/pr206" "pr206")) false (HVar true (HNamed (HName (Some (HPkg "sg/pr206" "pr206")) "Base") [] [])));
  (55, HObj "Do" (Some (HPkg "sg/pr206" "pr206")) false (HFunc (Some (HNamed (HName (Some (HPkg "sg/pr206" "pr206")) "Doer") [] [])) (HSig [] [] [("", (HNamed (HName None "error") [] []))] false)))].
Definition unders : list (nat * ty) := [(51, (TStruct []));
  (52, (TStruct [(FHdr 54 "Base" (Some "sg/pr206") true "", (TNamed (TName 51 (Some "sg/pr206") "Base") []))]));
  (53, (TInterface [("Do", (TSig [] [(TNamed (TName 21 None "error") [])] false))] ""));
  (21, (TInterface [("Error", (TSig [] [(TBasic BString false)] false))] ""))].
Definition msets : list (nat * (list obj * list obj)) := [(51, ([], []));
  (52, ([], []));
  (53, ([o55], []));
  (21, ([o22], []))].
Definition digests : list (string * string) := [("struct{}", "0d0ad1bdf1affd9c");
  ("struct{sg/pr206.Base}", "98c57466761535d5");
  ("interface{Do() error}", "89078a93562d4836")].
Definition formatted : list (string * string) := [("package p

type _ struct{}
", "package p

type _ struct{}
");
  ("package p

type _ struct{Base}
", "package p

type _ struct{ Base }
");
  ("package p

type _ interface{Do() error}
", "package p

type _ interface{ Do() error }
")].
Definition sources : list src := [Src "/repo/internal/testdata/snapshots/input/pr206/const_docs.go" 1 "package pr206

// Block doc for the const group.
const (
	// BlockConst1 is a multi-line doc.
	// It spans two lines.
	BlockConst1 = 1

	BlockConstNoDoc = 2

	BlockConstTrailing = 3 // trailing comment on const
)

const (
	// OrphanConst lives in a block with no block-level doc.
	OrphanConst = 99
)
" [];
  Src "/repo/internal/testdata/snapshots/input/pr206/embedded_field_docs.go" 302 "package pr206

type Base struct{}

type Container struct {
	// Base is embedded to inherit shared fields.
	Base
}
" [];
  Src "/repo/internal/testdata/snapshots/input/pr206/interface_method_docs.go" 417 "package pr206

type Doer interface {
	// Do performs the action and returns an error if it fails.
	Do() error
}
" []].
Definition gomods : list (string * string) := [].
Definition p1 : gpkg * option raw := (GPkg 1 "sg/pr206" "pr206" (Some (GMod "sg/pr206" "" "/repo/internal/testdata/snapshots/input/pr206" "/repo/internal/testdata/snapshots/input/pr206/go.mod" None)) [] [f1_0; f1_1; f1_2] (Some k0) None, (Some (Raw defs1 uses1 pkgnames1 cases1 canon1))).
Definition packages : list (gpkg * option raw) := [p1].
Definition roots : list nat := [1].
Definition scopes : list (nat * list obj) := [].
Definition levels : list nat := [51; 52; 53].
Definition input : input := Input "/repo/internal/testdata/snapshots/input/pr206" "sg/pr206" false sources packages roots gomods digests formatted hobjs unders msets scopes levels.
Definition golden : list (string * string) := [("const_docs.go", "  package pr206
//        ^^^^^ definition 0.1.test `sg/pr206`/
//              kind Package
//              display_name pr206
//              signature_documentation
//              > package pr206
  
  // Block doc for the const group.
  const (
   // BlockConst1 is a multi-line doc.
   // It spans two lines.
   BlockConst1 = 1
// ^^^^^^^^^^^ definition 0.1.test `sg/pr206`/BlockConst1.
//             kind Constant
//             display_name BlockConst1
//             signature_documentation
//             > const BlockConst1 untyped int = 1
//             documentation
//             > BlockConst1 is a multi-line doc.
//             > It spans two lines.
//             documentation
//             > Block doc for the const group.
  
   BlockConstNoDoc = 2
// ^^^^^^^^^^^^^^^ definition 0.1.test `sg/pr206`/BlockConstNoDoc.
//                 kind Constant
//                 display_name BlockConstNoDoc
//                 signature_documentation
//                 > const BlockConstNoDoc untyped int = 2
//                 documentation
//                 > Block doc for the const group.
  
   BlockConstTrailing = 3 // trailing comment on const
// ^^^^^^^^^^^^^^^^^^ definition 0.1.test `sg/pr206`/BlockConstTrailing.
//                    kind Constant
//                    display_name BlockConstTrailing
//                    signature_documentation
//                    > const BlockConstTrailing untyped int = 3
//                    documentation
//                    > trailing comment on const
//                    documentation
//                    > Block doc for the const group.
  )
  
  const (
   // OrphanConst lives in a block with no block-level doc.
   OrphanConst = 99
// ^^^^^^^^^^^ definition 0.1.test `sg/pr206`/OrphanConst.
//             kind Constant
//             display_name OrphanConst
//             signature_documentation
//             > const OrphanConst untyped int = 99
//             documentation
//             > OrphanConst lives in a block with no block-level doc.
  )
  
");
  ("embedded_field_docs.go", "  package pr206
//        ^^^^^ definition 0.1.test `sg/pr206`/
  
  type Base struct{}
//     ^^^^ definition 0.1.test `sg/pr206`/Base#
//          kind Struct
//          display_name Base
//          signature_documentation
//          > type Base struct{}
  
  type Container struct {
//     ^^^^^^^^^ definition 0.1.test `sg/pr206`/Container#
//               kind Struct
//               display_name Container
//               signature_documentation
//               > type Container struct{ Base }
   // Base is embedded to inherit shared fields.
   Base
// ^^^^ definition 0.1.test `sg/pr206`/Container#Base.
//      kind Field
//      display_name Base
//      signature_documentation
//      > struct field Base Base
//      documentation
//      > Base is embedded to inherit shared fields.
// ^^^^ reference 0.1.test `sg/pr206`/Base#
  }
  
");
  ("interface_method_docs.go", "  package pr206
//        ^^^^^ definition 0.1.test `sg/pr206`/
  
  type Doer interface {
//     ^^^^ definition 0.1.test `sg/pr206`/Doer#
//          kind Interface
//          display_name Doer
//          signature_documentation
//          > type Doer interface{ Do() error }
   // Do performs the action and returns an error if it fails.
   Do() error
// ^^ definition 0.1.test `sg/pr206`/Doer#Do.
//    kind MethodSpecification
//    display_name Do
//    signature_documentation
//    > func (Doer).Do() error
//    documentation
//    > Do performs the action and returns an error if it fails.
  }
  
")].

(** The model, run on the input directory, gives the golden files of /repo. *)
Example snapshot_pr206 : snapshot input = Some golden.
Proof. vm_compute. reflexivity. Qed.
(** The directory meets the hypotheses of the theorems (Contract.scopes_contract_ok). *)
Example snapshot_pr206_contract : contract input = true ∧ scopesb input = true.
Proof. split; vm_compute; reflexivity. Qed.
