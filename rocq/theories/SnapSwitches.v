(** Generated by tools/snapshot/emit.py from /repo/internal/testdata/snapshots/{input,output}/switches: what packages.Load
    returns for that directory (syntax, types, modules; dependencies reduced to the declarations used), and the golden output. *)
From Coq Require Import Ascii String.
From stdpp Require Import prelude strings gmap.
From Verif Require Import GoStr Scip GoTypes Ast Packages Source Signature Snapshot Contract.
Open Scope string_scope.
Open Scope list_scope.
(* switches/switches.go *)
Definition f1_0 : node := (NFile 1 false "" (Ident 1 "switches" 9)
  [(NGenDecl 63 TYPE "CustomSwitch does the things in a switch
" [(NTypeSpec "" (Ident 2 "CustomSwitch" 68) (NFieldList []) (NStructType 3 81 (NFieldList [])))]);
   (NFuncDecl "Something does some things... and stuff
" 134 190 (Some (NFieldList [(NField "" "" [(Ident 4 "c" 140)] (NStarExpr 142 (NIdent (Ident 5 "CustomSwitch" 143))))])) (Ident 6 "Something" 157) (NFuncType 134 (NFieldList []) (NFieldList []) (NFieldList [(NField "" "" [] (NIdent (Ident 7 "bool" 169)))])) (Some (NBlockStmt 174 [(NOther 176 [(NIdent (Ident 8 "false" 183))])])));
   (NFuncDecl "" 192 449 None (Ident 9 "Switch" 197) (NFuncType 192 (NFieldList []) (NFieldList [(NField "" "" [(Ident 10 "interfaceValue" 204)] (NInterfaceType 11 219 (NFieldList [])))]) (NFieldList [(NField "" "" [] (NIdent (Ident 12 "bool" 232)))])) (Some (NBlockStmt 237 [(NOther 240 [(NOther 247 [(NIdent (Ident 13 "concreteValue" 247)); (NOther 264 [(NIdent (Ident 14 "interfaceValue" 264))])]); (NBlockStmt 286 [(NOther 289 [(NIdent (Ident 15 "int" 294)); (NOther 301 [(NBinaryExpr (NBinaryExpr (NIdent (Ident 16 "concreteValue" 308)) (NOther 322 [])) (NOther 326 []))])]); (NOther 330 [(NIdent (Ident 17 "bool" 335)); (NOther 343 [(NUnaryExpr 350 (NIdent (Ident 18 "concreteValue" 351)))])]); (NOther 366 [(NIdent (Ident 19 "CustomSwitch" 371)); (NOther 387 [(NOther 394 [(NSelectorExpr (NIdent (Ident 20 "concreteValue" 394)) (Ident 21 "Something" 408))])])]); (NOther 421 [(NOther 432 [(NIdent (Ident 22 "false" 439))])])])])])))]).
Definition k0 : tpkg := TPkg "sg/switches" [SEntry "CustomSwitch" true (TNamed (TName 47 (Some "sg/switches") "CustomSwitch") []); SEntry "Switch" false (TBasic BInvalid false)].
Definition o47 : obj := Obj 47 "CustomSwitch" (Some k0) 68 OTypeName (TNamed (TName 47 (Some "sg/switches") "CustomSwitch") []) None.
Definition o48 : obj := Obj 48 "Something" (Some k0) 157 (OFunc (Some (Some (TPointer (TNamed (TName 47 (Some "sg/switches") "CustomSwitch") []))))) (TSig [] [(TBasic BBool false)] false) None.
Definition o49 : obj := Obj 49 "Switch" (Some k0) 197 (OFunc (Some None)) (TSig [(TInterface [] "")] [(TBasic BBool false)] false) None.
Definition o51 : obj := Obj 51 "c" (Some k0) 140 (OVar false) (TPointer (TNamed (TName 47 (Some "sg/switches") "CustomSwitch") [])) None.
Definition o52 : obj := Obj 52 "interfaceValue" (Some k0) 204 (OVar false) (TInterface [] "") None.
Definition o1 : obj := Obj 1 "bool" None 0 OTypeName (TBasic BBool false) None.
Definition o26 : obj := Obj 26 "false" None 0 OConst (TBasic BUntypedBool false) None.
Definition o2 : obj := Obj 2 "int" None 0 OTypeName (TBasic BInt false) None.
Definition o54 : obj := Obj 54 "concreteValue" (Some k0) 247 (OVar false) (TBasic BInt false) None.
Definition o55 : obj := Obj 55 "concreteValue" (Some k0) 247 (OVar false) (TBasic BBool false) None.
Definition o56 : obj := Obj 56 "concreteValue" (Some k0) 247 (OVar false) (TNamed (TName 47 (Some "sg/switches") "CustomSwitch") []) None.
Definition o57 : obj := Obj 57 "concreteValue" (Some k0) 247 (OVar false) (TInterface [] "") None.
Definition defs1 : list (nat * obj) := [(2, o47); (6, o48); (9, o49); (4, o51); (10, o52)].
Definition uses1 : list (nat * obj) := [(5, o47); (7, o1); (12, o1); (8, o26); (14, o52); (15, o2); (16, o54); (17, o1); (18, o55); (19, o47); (20, o56); (21, o48); (22, o26)].
Definition canon1 : list (nat * hty) := [(3, (HStruct [])); (11, (HInterface false [] []))].
Definition pkgnames1 : list (nat * obj) := [].
Definition cases1 : list obj := [o54; o55; o56; o57].
Definition hobjs : list (nat * hobj) := [(47, HObj "CustomSwitch" (Some (HPkg "sg/switches" "switches")) true (HTypeName (DDefined [] (HStruct []))));
  (48, HObj "Something" (Some (HPkg "sg/switches" "switches")) false (HFunc (Some (HPointer (HNamed (HName (Some (HPkg "sg/switches" "switches")) "CustomSwitch") [] []))) (HSig [] [] [("", (HBasic "bool"))] false)));
  (49, HObj "Switch" (Some (HPkg "sg/switches" "switches")) true (HFunc None (HSig [] [("interfaceValue", (HInterface false [] []))] [("", (HBasic "bool"))] false)));
  (51, HObj "c" (Some (HPkg "sg/switches" "switches")) false (HVar false (HPointer (HNamed (HName (Some (HPkg "sg/switches" "switches")) "CustomSwitch") [] []))));
  (52, HObj "interfaceValue" (Some (HPkg "sg/switches" "switches")) false (HVar false (HInterface false [] [])));
  (54, HObj "concreteValue" (Some (HPkg "sg/switches" "switches")) false (HVar false (HBasic "int")));
  (55, HObj "concreteValue" (Some (HPkg "sg/switches" "switches")) false (HVar false (HBasic "bool")));
  (56, HObj "concreteValue" (Some (HPkg "sg/switches" "switches")) false (HVar false (HNamed (HName (Some (HPkg "sg/switches" "switches")) "CustomSwitch") [] [])));
  (57, HObj "concreteValue" (Some (HPkg "sg/switches" "switches")) false (HVar false (HInterface false [] [])))].
Definition unders : list (nat * ty) := [(47, (TStruct []))].
Definition msets : list (nat * (list obj * list obj)) := [(47, ([], [o48]))].
Definition digests : list (string * string) := [("struct{}", "0d0ad1bdf1affd9c");
  ("interface{}", "add049cfe3c2b217")].
Definition formatted : list (string * string) := [("package p

type _ struct{}
", "package p

type _ struct{}
")].
Definition sources : list src := [Src "/repo/internal/testdata/snapshots/input/switches/switches.go" 1 "package switches

// CustomSwitch does the things in a switch
type CustomSwitch struct{}

// Something does some things... and stuff
func (c *CustomSwitch) Something() bool { return false }

func Switch(interfaceValue interface{}) bool {
	switch concreteValue := interfaceValue.(type) {
	case int:
		return concreteValue*3 > 10
	case bool:
		return !concreteValue
	case CustomSwitch:
		return concreteValue.Something()
	default:
		return false
	}
}
" []].
Definition gomods : list (string * string) := [].
Definition p1 : gpkg * option raw := (GPkg 1 "sg/switches" "switches" (Some (GMod "sg/switches" "" "/repo/internal/testdata/snapshots/input/switches" "/repo/internal/testdata/snapshots/input/switches/go.mod" None)) [] [f1_0] (Some k0) None, (Some (Raw defs1 uses1 pkgnames1 cases1 canon1))).
Definition packages : list (gpkg * option raw) := [p1].
Definition roots : list nat := [1].
Definition scopes : list (nat * list obj) := [].
Definition levels : list nat := [47].
Definition input : input := Input "/repo/internal/testdata/snapshots/input/switches" "sg/switches" false sources packages roots gomods digests formatted hobjs unders msets scopes levels.
Definition golden : list (string * string) := [("switches.go", "  package switches
//        ^^^^^^^^ definition 0.1.test `sg/switches`/
//                 kind Package
//                 display_name switches
//                 signature_documentation
//                 > package switches
  
  // CustomSwitch does the things in a switch
  type CustomSwitch struct{}
//     ^^^^^^^^^^^^ definition 0.1.test `sg/switches`/CustomSwitch#
//                  kind Struct
//                  display_name CustomSwitch
//                  signature_documentation
//                  > type CustomSwitch struct{}
//                  documentation
//                  > CustomSwitch does the things in a switch
  
  // Something does some things... and stuff
//⌄ enclosing_range_start 0.1.test `sg/switches`/CustomSwitch#Something().
  func (c *CustomSwitch) Something() bool { return false }
//      ^ definition local 0
//        kind Variable
//        display_name c
//        signature_documentation
//        > var c *CustomSwitch
//         ^^^^^^^^^^^^ reference 0.1.test `sg/switches`/CustomSwitch#
//                       ^^^^^^^^^ definition 0.1.test `sg/switches`/CustomSwitch#Something().
//                                 kind Method
//                                 display_name Something
//                                 signature_documentation
//                                 > func (*CustomSwitch).Something() bool
//                                 documentation
//                                 > Something does some things... and stuff
//                                                       ⌃ enclosing_range_end 0.1.test `sg/switches`/CustomSwitch#Something().
  
//⌄ enclosing_range_start 0.1.test `sg/switches`/Switch().
  func Switch(interfaceValue interface{}) bool {
//     ^^^^^^ definition 0.1.test `sg/switches`/Switch().
//            kind Function
//            display_name Switch
//            signature_documentation
//            > func Switch(interfaceValue interface{}) bool
//            ^^^^^^^^^^^^^^ definition local 1
//                           kind Variable
//                           display_name interfaceValue
//                           signature_documentation
//                           > var interfaceValue interface{}
   switch concreteValue := interfaceValue.(type) {
//        ^^^^^^^^^^^^^ definition local 2
//                      kind Variable
//                      display_name concreteValue
//                         ^^^^^^^^^^^^^^ reference local 1
   case int:
    return concreteValue*3 > 10
//         ^^^^^^^^^^^^^ reference local 2
   case bool:
    return !concreteValue
//          ^^^^^^^^^^^^^ reference local 2
   case CustomSwitch:
//      ^^^^^^^^^^^^ reference 0.1.test `sg/switches`/CustomSwitch#
    return concreteValue.Something()
//         ^^^^^^^^^^^^^ reference local 2
//                       ^^^^^^^^^ reference 0.1.test `sg/switches`/CustomSwitch#Something().
   default:
    return false
   }
  }
//⌃ enclosing_range_end 0.1.test `sg/switches`/Switch().
  
")].

(** The model, run on the input directory, gives the golden files of /repo. *)
Example snapshot_switches : snapshot input = Some golden.
Proof. vm_compute. reflexivity. Qed.
(** The directory meets the hypotheses of the theorems (Contract.scopes_contract_ok). *)
Example snapshot_switches_contract : contract input = true ∧ scopesb input = true.
Proof. split; vm_compute; reflexivity. Qed.
