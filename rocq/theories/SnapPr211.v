(** Generated by tools/snapshot/emit.py from /repo/internal/testdata/snapshots/{input,output}/pr211: what packages.Load
    returns for that directory (syntax, types, modules; dependencies reduced to the declarations used), and the golden output. *)
From Coq Require Import Ascii String.
From stdpp Require Import prelude strings gmap.
From Verif Require Import GoStr Scip GoTypes Ast Packages Source Signature Snapshot Contract.
Open Scope string_scope.
Open Scope list_scope.
(* pr211/generic_alias.go *)
Definition f1_0 : node := (NFile 1 false "" (Ident 1 "pr211" 9)
  [(NGenDecl 46 TYPE "Map is a generic map type.
" [(NTypeSpec "" (Ident 2 "Map" 51) (NFieldList [(NField "" "" [(Ident 3 "K" 55)] (NIdent (Ident 4 "comparable" 57))); (NField "" "" [(Ident 5 "V" 69)] (NIdent (Ident 6 "any" 71)))]) (NStructType 7 76 (NFieldList [(NField "" "" [(Ident 8 "entries" 86)] (NArrayType 94 None (NIndexListExpr (NIdent (Ident 9 "entry" 96)) [(NIdent (Ident 10 "K" 102)); (NIdent (Ident 11 "V" 105))])))])))]);
   (NGenDecl 111 TYPE "" [(NTypeSpec "" (Ident 12 "entry" 116) (NFieldList [(NField "" "" [(Ident 13 "K" 122)] (NIdent (Ident 14 "comparable" 124))); (NField "" "" [(Ident 15 "V" 136)] (NIdent (Ident 16 "any" 138)))]) (NStructType 17 143 (NFieldList [(NField "" "" [(Ident 18 "key" 153)] (NIdent (Ident 19 "K" 159))); (NField "" "" [(Ident 20 "value" 162)] (NIdent (Ident 21 "V" 168)))])))]);
   (NGenDecl 232 TYPE "Set is a generic alias that partially instantiates Map.
" [(NTypeSpec "" (Ident 22 "Set" 237) (NFieldList [(NField "" "" [(Ident 23 "K" 241)] (NIdent (Ident 24 "comparable" 243)))]) (NIndexListExpr (NIdent (Ident 25 "Map" 257)) [(NIdent (Ident 26 "K" 261)); (NIdent (Ident 27 "bool" 264))]))]);
   (NGenDecl 307 TYPE "Alias with a tighter constraint.
" [(NTypeSpec "" (Ident 28 "OrderedSet" 312) (NFieldList [(NField "" "" [(Ident 29 "K" 323)] (NBinaryExpr (NUnaryExpr 325 (NIdent (Ident 30 "int" 326))) (NUnaryExpr 332 (NIdent (Ident 31 "string" 333)))))]) (NIndexExpr (NIdent (Ident 32 "Set" 343)) (NIdent (Ident 33 "K" 347))))]);
   (NGenDecl 383 TYPE "Alias of an alias (chained).
" [(NTypeSpec "" (Ident 34 "StringSet" 388) (NFieldList []) (NIndexExpr (NIdent (Ident 35 "Set" 400)) (NIdent (Ident 36 "string" 404))))]);
   (NGenDecl 449 TYPE "Alias with all params forwarded.
" [(NTypeSpec "" (Ident 37 "PairMap" 454) (NFieldList [(NField "" "" [(Ident 38 "K" 462)] (NIdent (Ident 39 "comparable" 464))); (NField "" "" [(Ident 40 "V" 476)] (NIdent (Ident 41 "any" 478)))]) (NIndexListExpr (NIdent (Ident 42 "Map" 485)) [(NIdent (Ident 43 "K" 489)); (NIdent (Ident 44 "V" 492))]))]);
   (NFuncDecl "" 496 601 None (Ident 45 "UseAliases" 501) (NFuncType 496 (NFieldList []) (NFieldList []) (NFieldList [])) (Some (NBlockStmt 514 [(NOther 517 [(NIdent (Ident 46 "_" 517)); (NOther 521 [(NIndexExpr (NIdent (Ident 47 "Set" 521)) (NIdent (Ident 48 "int" 525)))])]); (NOther 533 [(NIdent (Ident 49 "_" 533)); (NOther 537 [(NIndexExpr (NIdent (Ident 50 "OrderedSet" 537)) (NIdent (Ident 51 "int" 548)))])]); (NOther 556 [(NIdent (Ident 52 "_" 556)); (NOther 560 [(NIdent (Ident 53 "StringSet" 560))])]); (NOther 573 [(NIdent (Ident 54 "_" 573)); (NOther 577 [(NIndexListExpr (NIdent (Ident 55 "PairMap" 577)) [(NIdent (Ident 56 "string" 585)); (NIdent (Ident 57 "int" 593))])])])])))]).
Definition k0 : tpkg := TPkg "sg/pr211" [SEntry "Map" true (TNamed (TName 47 (Some "sg/pr211") "Map") []); SEntry "OrderedSet" true (TAlias (TName 50 (Some "sg/pr211") "OrderedSet") (TAlias (TName 49 (Some "sg/pr211") "Set") (TNamed (TName 47 (Some "sg/pr211") "Map") [(TTypeParam (TName 62 (Some "sg/pr211") "K") 0); (TBasic BBool false)]))); SEntry "PairMap" true (TAlias (TName 52 (Some "sg/pr211") "PairMap") (TNamed (TName 47 (Some "sg/pr211") "Map") [(TTypeParam (TName 63 (Some "sg/pr211") "K") 0); (TTypeParam (TName 64 (Some "sg/pr211") "V") 1)])); SEntry "Set" true (TAlias (TName 49 (Some "sg/pr211") "Set") (TNamed (TName 47 (Some "sg/pr211") "Map") [(TTypeParam (TName 61 (Some "sg/pr211") "K") 0); (TBasic BBool false)])); SEntry "StringSet" true (TAlias (TName 51 (Some "sg/pr211") "StringSet") (TAlias (TName 49 (Some "sg/pr211") "Set") (TNamed (TName 47 (Some "sg/pr211") "Map") [(TBasic BString false); (TBasic BBool false)]))); SEntry "UseAliases" false (TBasic BInvalid false); SEntry "entry" true (TNamed (TName 48 (Some "sg/pr211") "entry") [])].
Definition o47 : obj := Obj 47 "Map" (Some k0) 51 OTypeName (TNamed (TName 47 (Some "sg/pr211") "Map") []) None.
Definition o48 : obj := Obj 48 "entry" (Some k0) 116 OTypeName (TNamed (TName 48 (Some "sg/pr211") "entry") []) None.
Definition o49 : obj := Obj 49 "Set" (Some k0) 237 OTypeName (TAlias (TName 49 (Some "sg/pr211") "Set") (TNamed (TName 47 (Some "sg/pr211") "Map") [(TTypeParam (TName 61 (Some "sg/pr211") "K") 0); (TBasic BBool false)])) None.
Definition o50 : obj := Obj 50 "OrderedSet" (Some k0) 312 OTypeName (TAlias (TName 50 (Some "sg/pr211") "OrderedSet") (TAlias (TName 49 (Some "sg/pr211") "Set") (TNamed (TName 47 (Some "sg/pr211") "Map") [(TTypeParam (TName 62 (Some "sg/pr211") "K") 0); (TBasic BBool false)]))) None.
Definition o51 : obj := Obj 51 "StringSet" (Some k0) 388 OTypeName (TAlias (TName 51 (Some "sg/pr211") "StringSet") (TAlias (TName 49 (Some "sg/pr211") "Set") (TNamed (TName 47 (Some "sg/pr211") "Map") [(TBasic BString false); (TBasic BBool false)]))) None.
Definition o52 : obj := Obj 52 "PairMap" (Some k0) 454 OTypeName (TAlias (TName 52 (Some "sg/pr211") "PairMap") (TNamed (TName 47 (Some "sg/pr211") "Map") [(TTypeParam (TName 63 (Some "sg/pr211") "K") 0); (TTypeParam (TName 64 (Some "sg/pr211") "V") 1)])) None.
Definition o53 : obj := Obj 53 "UseAliases" (Some k0) 501 (OFunc (Some None)) (TSig [] [] false) None.
Definition o54 : obj := Obj 54 "K" (Some k0) 55 OTypeName (TTypeParam (TName 54 (Some "sg/pr211") "K") 0) None.
Definition o55 : obj := Obj 55 "V" (Some k0) 69 OTypeName (TTypeParam (TName 55 (Some "sg/pr211") "V") 1) None.
Definition o56 : obj := Obj 56 "K" (Some k0) 122 OTypeName (TTypeParam (TName 56 (Some "sg/pr211") "K") 0) None.
Definition o57 : obj := Obj 57 "V" (Some k0) 136 OTypeName (TTypeParam (TName 57 (Some "sg/pr211") "V") 1) None.
Definition o58 : obj := Obj 58 "key" (Some k0) 153 (OVar true) (TTypeParam (TName 56 (Some "sg/pr211") "K") 0) None.
Definition o59 : obj := Obj 59 "value" (Some k0) 162 (OVar true) (TTypeParam (TName 57 (Some "sg/pr211") "V") 1) None.
Definition o60 : obj := Obj 60 "entries" (Some k0) 86 (OVar true) (TSlice (TNamed (TName 48 (Some "sg/pr211") "entry") [(TTypeParam (TName 54 (Some "sg/pr211") "K") 0); (TTypeParam (TName 55 (Some "sg/pr211") "V") 1)])) None.
Definition o61 : obj := Obj 61 "K" (Some k0) 241 OTypeName (TTypeParam (TName 61 (Some "sg/pr211") "K") 0) None.
Definition o62 : obj := Obj 62 "K" (Some k0) 323 OTypeName (TTypeParam (TName 62 (Some "sg/pr211") "K") 0) None.
Definition o63 : obj := Obj 63 "K" (Some k0) 462 OTypeName (TTypeParam (TName 63 (Some "sg/pr211") "K") 0) None.
Definition o64 : obj := Obj 64 "V" (Some k0) 476 OTypeName (TTypeParam (TName 64 (Some "sg/pr211") "V") 1) None.
Definition o24 : obj := Obj 24 "comparable" None 0 OTypeName (TNamed (TName 24 None "comparable") []) None.
Definition o20 : obj := Obj 20 "any" None 0 OTypeName (TAlias (TName 20 None "any") (TInterface [] "")) None.
Definition o1 : obj := Obj 1 "bool" None 0 OTypeName (TBasic BBool false) None.
Definition o2 : obj := Obj 2 "int" None 0 OTypeName (TBasic BInt false) None.
Definition o17 : obj := Obj 17 "string" None 0 OTypeName (TBasic BString false) None.
Definition defs1 : list (nat * obj) := [(2, o47); (12, o48); (22, o49); (28, o50); (34, o51); (37, o52); (45, o53); (3, o54); (5, o55); (13, o56); (15, o57); (18, o58); (20, o59); (8, o60); (23, o61); (29, o62); (38, o63); (40, o64)].
Definition uses1 : list (nat * obj) := [(4, o24); (6, o20); (9, o48); (10, o54); (11, o55); (14, o24); (16, o20); (19, o56); (21, o57); (24, o24); (25, o47); (26, o61); (27, o1); (30, o2); (31, o17); (32, o49); (33, o62); (35, o49); (36, o17); (39, o24); (41, o20); (42, o47); (43, o63); (44, o64); (47, o49); (48, o2); (50, o50); (51, o2); (53, o51); (55, o52); (56, o17); (57, o2)].
Definition canon1 : list (nat * hty) := [(17, (HStruct [("key", false, "", (HTypeParam "K")); ("value", false, "", (HTypeParam "V"))])); (7, (HStruct [("entries", false, "", (HSlice (HNamed (HName (Some (HPkg "sg/pr211" "pr211")) "entry") [(HTypeParam "K"); (HTypeParam "V")] [])))]))].
Definition pkgnames1 : list (nat * obj) := [].
Definition cases1 : list obj := [].
Definition hobjs : list (nat * hobj) := [(47, HObj "Map" (Some (HPkg "sg/pr211" "pr211")) true (HTypeName (DDefined [(["K"], (HNamed (HName None "comparable") [] [])); (["V"], HAny)] (HStruct [("entries", false, "", (HSlice (HNamed (HName (Some (HPkg "sg/pr211" "pr211")) "entry") [(HTypeParam "K"); (HTypeParam "V")] [])))]))));
  (48, HObj "entry" (Some (HPkg "sg/pr211" "pr211")) true (HTypeName (DDefined [(["K"], (HNamed (HName None "comparable") [] [])); (["V"], HAny)] (HStruct [("key", false, "", (HTypeParam "K")); ("value", false, "", (HTypeParam "V"))]))));
  (49, HObj "Set" (Some (HPkg "sg/pr211" "pr211")) true (HTypeName (DAlias [(["K"], (HNamed (HName None "comparable") [] []))] (HNamed (HName (Some (HPkg "sg/pr211" "pr211")) "Map") [(HTypeParam "K"); (HBasic "bool")] []))));
  (50, HObj "OrderedSet" (Some (HPkg "sg/pr211" "pr211")) true (HTypeName (DAlias [(["K"], (HInterface true [] [(HUnion [(true, (HBasic "int")); (true, (HBasic "string"))])]))] (HNamed (HName (Some (HPkg "sg/pr211" "pr211")) "Set") [(HTypeParam "K")] []))));
  (51, HObj "StringSet" (Some (HPkg "sg/pr211" "pr211")) true (HTypeName (DAlias [] (HNamed (HName (Some (HPkg "sg/pr211" "pr211")) "Set") [(HBasic "string")] []))));
  (52, HObj "PairMap" (Some (HPkg "sg/pr211" "pr211")) true (HTypeName (DAlias [(["K"], (HNamed (HName None "comparable") [] [])); (["V"], HAny)] (HNamed (HName (Some (HPkg "sg/pr211" "pr211")) "Map") [(HTypeParam "K"); (HTypeParam "V")] []))));
  (53, HObj "UseAliases" (Some (HPkg "sg/pr211" "pr211")) true (HFunc None (HSig [] [] [] false)));
  (54, HObj "K" (Some (HPkg "sg/pr211" "pr211")) false (HTypeName (DTypeParam (HNamed (HName None "comparable") [] []) HComparable)));
  (55, HObj "V" (Some (HPkg "sg/pr211" "pr211")) false (HTypeName (DTypeParam HAny HAny)));
  (56, HObj "K" (Some (HPkg "sg/pr211" "pr211")) false (HTypeName (DTypeParam (HNamed (HName None "comparable") [] []) HComparable)));
  (57, HObj "V" (Some (HPkg "sg/pr211" "pr211")) false (HTypeName (DTypeParam HAny HAny)));
  (58, HObj "key" (Some (HPkg "sg/pr211" "pr211")) false (HVar true (HTypeParam "K")));
  (59, HObj "value" (Some (HPkg "sg/pr211" "pr211")) false (HVar true (HTypeParam "V")));
  (60, HObj "entries" (Some (HPkg "sg/pr211" "pr211")) false (HVar true (HSlice (HNamed (HName (Some (HPkg "sg/pr211" "pr211")) "entry") [(HTypeParam "K"); (HTypeParam "V")] []))));
  (61, HObj "K" (Some (HPkg "sg/pr211" "pr211")) false (HTypeName (DTypeParam (HNamed (HName None "comparable") [] []) HComparable)));
  (62, HObj "K" (Some (HPkg "sg/pr211" "pr211")) false (HTypeName (DTypeParam (HInterface true [] [(HUnion [(true, (HBasic "int")); (true, (HBasic "string"))])]) (HInterface true [] [(HUnion [(true, (HBasic "int")); (true, (HBasic "string"))])]))));
  (63, HObj "K" (Some (HPkg "sg/pr211" "pr211")) false (HTypeName (DTypeParam (HNamed (HName None "comparable") [] []) HComparable)));
  (64, HObj "V" (Some (HPkg "sg/pr211" "pr211")) false (HTypeName (DTypeParam HAny HAny)))].
Definition unders : list (nat * ty) := [(47, (TStruct [(FHdr 60 "entries" (Some "sg/pr211") false "", (TSlice (TNamed (TName 48 (Some "sg/pr211") "entry") [(TTypeParam (TName 54 (Some "sg/pr211") "K") 0); (TTypeParam (TName 55 (Some "sg/pr211") "V") 1)])))]));
  (48, (TStruct [(FHdr 58 "key" (Some "sg/pr211") false "", (TTypeParam (TName 56 (Some "sg/pr211") "K") 0)); (FHdr 59 "value" (Some "sg/pr211") false "", (TTypeParam (TName 57 (Some "sg/pr211") "V") 1))]));
  (24, (TInterface [] "comparable"))].
Definition msets : list (nat * (list obj * list obj)) := [(47, ([], []));
  (48, ([], []));
  (24, ([], []))].
Definition digests : list (string * string) := [("struct{key K; value V}", "5f004f2aef661e3a");
  ("struct{entries []sg/pr211.entry[K, V]}", "6b54bc1013a62a83")].
Definition formatted : list (string * string) := [("package p

type _ struct{entries []entry[K, V]}
", "package p

type _ struct{ entries []entry[K, V] }
");
  ("package p

type _ struct{key K; value V}
", "package p

type _ struct {
	key   K
	value V
}
")].
Definition sources : list src := [Src "/repo/internal/testdata/snapshots/input/pr211/generic_alias.go" 1 "package pr211

// Map is a generic map type.
type Map[K comparable, V any] struct {
	entries []entry[K, V]
}

type entry[K comparable, V any] struct {
	key   K
	value V
}

// Set is a generic alias that partially instantiates Map.
type Set[K comparable] = Map[K, bool]

// Alias with a tighter constraint.
type OrderedSet[K ~int | ~string] = Set[K]

// Alias of an alias (chained).
type StringSet = Set[string]

// Alias with all params forwarded.
type PairMap[K comparable, V any] = Map[K, V]

func UseAliases() {
	_ = Set[int]{}
	_ = OrderedSet[int]{}
	_ = StringSet{}
	_ = PairMap[string, int]{}
}
" []].
Definition gomods : list (string * string) := [].
Definition p1 : gpkg * option raw := (GPkg 1 "sg/pr211" "pr211" (Some (GMod "sg/pr211" "" "/repo/internal/testdata/snapshots/input/pr211" "/repo/internal/testdata/snapshots/input/pr211/go.mod" None)) [] [f1_0] (Some k0) None, (Some (Raw defs1 uses1 pkgnames1 cases1 canon1))).
Definition packages : list (gpkg * option raw) := [p1].
Definition roots : list nat := [1].
Definition scopes : list (nat * list obj) := [].
Definition levels : list nat := [47; 48].
Definition input : input := Input "/repo/internal/testdata/snapshots/input/pr211" "sg/pr211" false sources packages roots gomods digests formatted hobjs unders msets scopes levels.
Definition golden : list (string * string) := [("generic_alias.go", "  package pr211
//        ^^^^^ definition 0.1.test `sg/pr211`/
//              kind Package
//              display_name pr211
//              signature_documentation
//              > package pr211
  
  // Map is a generic map type.
  type Map[K comparable, V any] struct {
//     ^^^ definition 0.1.test `sg/pr211`/Map#
//         kind Struct
//         display_name Map
//         signature_documentation
//         > type Map struct{ entries []entry[K, V] }
//         documentation
//         > Map is a generic map type.
//         ^ definition local 0
//           kind Interface
//           display_name K
//           signature_documentation
//           > type parameter K comparable
//                       ^ definition local 1
//                         kind Interface
//                         display_name V
//                         signature_documentation
//                         > type parameter V any
   entries []entry[K, V]
// ^^^^^^^ definition 0.1.test `sg/pr211`/Map#entries.
//         kind Field
//         display_name entries
//         signature_documentation
//         > struct field entries []entry[K, V]
//           ^^^^^ reference 0.1.test `sg/pr211`/entry#
//                 ^ reference local 0
//                    ^ reference local 1
  }
  
  type entry[K comparable, V any] struct {
//     ^^^^^ definition 0.1.test `sg/pr211`/entry#
//           kind Struct
//           display_name entry
//           signature_documentation
//           > type entry struct {
//           >     key   K
//           >     value V
//           > }
//           ^ definition local 2
//             kind Interface
//             display_name K
//             signature_documentation
//             > type parameter K comparable
//                         ^ definition local 3
//                           kind Interface
//                           display_name V
//                           signature_documentation
//                           > type parameter V any
   key   K
// ^^^ definition 0.1.test `sg/pr211`/entry#key.
//     kind Field
//     display_name key
//     signature_documentation
//     > struct field key K
//       ^ reference local 2
   value V
// ^^^^^ definition 0.1.test `sg/pr211`/entry#value.
//       kind Field
//       display_name value
//       signature_documentation
//       > struct field value V
//       ^ reference local 3
  }
  
  // Set is a generic alias that partially instantiates Map.
  type Set[K comparable] = Map[K, bool]
//     ^^^ definition 0.1.test `sg/pr211`/Set#
//         kind TypeAlias
//         display_name Set
//         signature_documentation
//         > type Set[K comparable] = Map[K, bool]
//         documentation
//         > Set is a generic alias that partially instantiates Map.
//         ^ definition local 4
//           kind Interface
//           display_name K
//           signature_documentation
//           > type parameter K comparable
//                         ^^^ reference 0.1.test `sg/pr211`/Map#
//                             ^ reference local 4
  
  // Alias with a tighter constraint.
  type OrderedSet[K ~int | ~string] = Set[K]
//     ^^^^^^^^^^ definition 0.1.test `sg/pr211`/OrderedSet#
//                kind TypeAlias
//                display_name OrderedSet
//                signature_documentation
//                > type OrderedSet[K ~int | ~string] = Set[K]
//                documentation
//                > Alias with a tighter constraint.
//                ^ definition local 5
//                  kind Interface
//                  display_name K
//                  signature_documentation
//                  > type parameter K ~int | ~string
//                                    ^^^ reference 0.1.test `sg/pr211`/Set#
//                                        ^ reference local 5
  
  // Alias of an alias (chained).
  type StringSet = Set[string]
//     ^^^^^^^^^ definition 0.1.test `sg/pr211`/StringSet#
//               kind TypeAlias
//               display_name StringSet
//               signature_documentation
//               > type StringSet = Set[string]
//               documentation
//               > Alias of an alias (chained).
//                 ^^^ reference 0.1.test `sg/pr211`/Set#
  
  // Alias with all params forwarded.
  type PairMap[K comparable, V any] = Map[K, V]
//     ^^^^^^^ definition 0.1.test `sg/pr211`/PairMap#
//             kind TypeAlias
//             display_name PairMap
//             signature_documentation
//             > type PairMap[K comparable, V any] = Map[K, V]
//             documentation
//             > Alias with all params forwarded.
//             ^ definition local 6
//               kind Interface
//               display_name K
//               signature_documentation
//               > type parameter K comparable
//                           ^ definition local 7
//                             kind Interface
//                             display_name V
//                             signature_documentation
//                             > type parameter V any
//                                    ^^^ reference 0.1.test `sg/pr211`/Map#
//                                        ^ reference local 6
//                                           ^ reference local 7
  
//⌄ enclosing_range_start 0.1.test `sg/pr211`/UseAliases().
  func UseAliases() {
//     ^^^^^^^^^^ definition 0.1.test `sg/pr211`/UseAliases().
//                kind Function
//                display_name UseAliases
//                signature_documentation
//                > func UseAliases()
   _ = Set[int]{}
//     ^^^ reference 0.1.test `sg/pr211`/Set#
   _ = OrderedSet[int]{}
//     ^^^^^^^^^^ reference 0.1.test `sg/pr211`/OrderedSet#
   _ = StringSet{}
//     ^^^^^^^^^ reference 0.1.test `sg/pr211`/StringSet#
   _ = PairMap[string, int]{}
//     ^^^^^^^ reference 0.1.test `sg/pr211`/PairMap#
  }
//⌃ enclosing_range_end 0.1.test `sg/pr211`/UseAliases().
  
")].

(** The model, run on the input directory, gives the golden files of /repo. *)
Example snapshot_pr211 : snapshot input = Some golden.
Proof. vm_compute. reflexivity. Qed.
(** The directory meets the hypotheses of the theorems (Contract.scopes_contract_ok). *)
Example snapshot_pr211_contract : contract input = true ∧ scopesb input = true.
Proof. split; vm_compute; reflexivity. Qed.
