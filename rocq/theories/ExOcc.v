(** Example file for the occurrence theorems.
    package p
    import f "fmt"
    // F docs.
    //
    // Deprecated: use G.
    func F[S ~[]E, E any](s S) int { x := 1; f.Println(x); return x } *)
From Coq Require Import Ascii String.
From stdpp Require Import prelude strings gmap.
From Verif Require Import GoStr Scip GoTypes Ast Packages Symbols Document Lookup Pass1 Pass2
  SpecSymbol SpecDecl SpecLookup SpecOcc P_Symbols P_Pass1 P_Pass2 ExDecl.
Open Scope string_scope.
Open Scope list_scope.

Definition q_import : node := NGenDecl 12 IMPORT "" [NImportSpec 101 (Some (mk 102 "f" 19)) 21 (String dquote ("fmt" +:+ String dquote ""))].
Definition q_tps : node := NFieldList
  [NField "" "" [mk 104 "S" 37] (NUnaryExpr 39 (NArrayType 40 None (NIdent (mk 105 "E" 42))));
   NField "" "" [mk 106 "E" 45] (NIdent (mk 107 "any" 47))].
Definition q_body : node := NBlockStmt 60
  [NOther 62 [NIdent (mk 111 "x" 62); NOther 67 []];
   NOther 69 [NSelectorExpr (NIdent (mk 112 "f" 69)) (mk 113 "Println" 71); NIdent (mk 114 "x" 79)];
   NOther 82 [NIdent (mk 115 "x" 89)]].
Definition q_F : node := NFuncDecl ("F docs." +:+ nl +:+ nl +:+ "Deprecated: use G.") 30 92 None (mk 103 "F" 35)
  (NFuncType 30 q_tps (NFieldList [NField "" "" [mk 108 "s" 52] (NIdent (mk 109 "S" 54))])
     (NFieldList [NField "" "" [] (NIdent (mk 110 "int" 57))])) (Some q_body).
Definition q_file : node := NFile 1 false "" (mk 100 "p" 9) [q_import; q_F].
Definition q_tpkg : tpkg := TPkg "ex.org/p" [].
Definition fmt_tpkg : tpkg := TPkg "fmt" [].
Definition fmt_mod : gmodule := GMod "github.com/golang/go/src" "go1.25" "" "" None.
Definition q_pkg : gpkg := GPkg 1 "ex.org/p" "p" (Some p_mod) [("fmt", 2)] [q_file] (Some q_tpkg) None.
Definition fmt_pkg : gpkg := GPkg 2 "fmt" "fmt" (Some fmt_mod) [] [] (Some fmt_tpkg) None.
Definition tn_any : tname := TName 1 None "any".
Definition o_F : obj := Obj 203 "F" (Some q_tpkg) 35 (OFunc (Some None)) (TSig [] [] false) None.
Definition o_S : obj := Obj 204 "S" (Some q_tpkg) 37 OTypeName (TTypeParam (TName 204 (Some "ex.org/p") "S") 0) None.
Definition o_E : obj := Obj 206 "E" (Some q_tpkg) 45 OTypeName (TTypeParam (TName 206 (Some "ex.org/p") "E") 1) None.
Definition o_s : obj := Obj 208 "s" (Some q_tpkg) 52 (OVar false) (TTypeParam (TName 204 (Some "ex.org/p") "S") 0) None.
Definition o_x : obj := Obj 211 "x" (Some q_tpkg) 62 (OVar false) (TBasic BInt false) None.
Definition o_any : obj := Obj 1 "any" None 0 OTypeName (TInterface [] "") None.
Definition o_int : obj := Obj 2 "int" None 0 OTypeName (TBasic BInt false) None.
Definition o_fmt : obj := Obj 202 "f" (Some q_tpkg) 19 (OPkgName "fmt") (TBasic BInvalid false) None.
Definition o_Println : obj := Obj 301 "Println" (Some fmt_tpkg) 5000 (OFunc (Some None)) (TSig [] [] true) None.
Definition tab {A} (l : list (nat * A)) (i : nat) : option A := snd <$> List.find (λ e, Nat.eqb e.1 i) l.
Lemma tab_in {A} (l : list (nat * A)) i a : tab l i = Some a → In (i, a) l.
Proof.
  unfold tab. destruct (List.find _ l) as [[j b]|] eqn:E; [|done]. intros [= <-].
  apply find_some in E as [E1 E2]. apply Nat.eqb_eq in E2. cbn in E2. by subst.
Qed.
Definition q_defs : nat → option obj := tab
  [(103, o_F); (104, o_S); (106, o_E); (108, o_s); (111, o_x); (102, o_fmt)].
Definition q_uses : nat → option obj := tab
  [(105, o_E); (107, o_any); (109, o_S); (110, o_int); (112, o_fmt); (113, o_Println); (114, o_x); (115, o_x)].
Definition q_ti : tinfo := TInfo q_defs q_uses (λ i, if Nat.eqb i 101 then Some o_fmt else None) [] (λ _, None) (λ _, "sig").
Definition q_objs (i : nat) : option obj :=
  List.find (λ o, Nat.eqb (o_id o) i) [o_F; o_S; o_E; o_s; o_x; o_any; o_int; o_fmt; o_Println].
Definition q_imports (path : string) : option gpkg := if String.eqb path "fmt" then Some fmt_pkg else None.
Definition q_tbl : ptable :=
  match visit_package_table p_digest q_ti p_fs p_env q_pkg with Ok t => t | Panic _ => ∅ end.
Definition q_g : global :=
  match set_pkg_symbol new_global q_pkg with
  | Ok g => match set_pkg_symbol g fmt_pkg with Ok g' => g_add g' q_pkg q_tbl | Panic _ => g end
  | Panic _ => new_global
  end.
Definition q_pkg_occ : occurrence :=
  Definition_ "scip-go gomod ex.org v1.0.0 `ex.org/p`/" [0; 8; 9]%Z [] false.

Lemma q_table : visit_package_table p_digest q_ti p_fs p_env q_pkg = Ok q_tbl.
Proof. vm_compute. reflexivity. Qed.
Lemma q_own : own_table q_g q_pkg q_tbl.
Proof. exists q_pkg. unfold q_g. cbn -[set_pkg_symbol]. vm_compute. reflexivity. Qed.

Ltac enum H := rewrite elem_of_list_In in H; vm_compute in H; repeat (destruct H as [H|H]); try done.
Lemma q_wf : wf_file p_fs q_ti q_imports q_file.
Proof.
  split.
  - by eexists _, _, _, _, _.
  - intros decl m c Hd Hm Hc.
    assert (H : forallb (λ decl, forallb (λ m, forallb (λ c, match c with NFuncDecl _ _ _ _ _ _ _ | NFile _ _ _ _ _ => false | _ => true end)
       (node_children m)) (subnodes decl)) (file_decls q_file) = true) by reflexivity.
    rewrite forallb_forall in H. specialize (H _ (proj1 (elem_of_list_In _ _) Hd)).
    rewrite forallb_forall in H. specialize (H _ (proj1 (elem_of_list_In _ _) Hm)).
    rewrite forallb_forall in H. specialize (H _ (proj1 (elem_of_list_In _ _) Hc)). by destruct c.
  - intros decl Hd. enum Hd; by subst.
  - vm_compute. repeat (apply NoDup_cons; split; [intros H; enum H|]). constructor.
  - intros par i o path Hi Hu Hk.
    destruct (decide (id_ptr i = 112)) as [E|E].
    + right. enum Hi; injection Hi as <- <-; try discriminate. by eexists.
    + exfalso. apply tab_in in Hu. cbn in Hu.
      repeat (destruct Hu as [Hu|Hu]; [injection Hu as E' <-; try discriminate; congruence|]). done.
  - intros ptr o path [H|H] Hk; apply tab_in in H; cbn in H;
      repeat (destruct H as [H|H]; [injection H as _ <-; try discriminate; done|]); done.
  - intros i Hi. rewrite <- elem_of_node_idents in Hi. enum Hi; subst i; vm_compute; intuition discriminate.
  - intros d p e r nm t b H. enum H. injection H as <- <- <- <- <- <- <-. vm_compute; intuition discriminate.
  - intros ptr nm p l path imp Hin Himp.
    assert (imp = fmt_pkg) as ->. { unfold q_imports in Himp. destruct (String.eqb _ _); congruence. }
    enum Hin. injection Hin as <- <- <- <-. vm_compute; intuition discriminate.
Qed.
Lemma q_go_object ptr o : q_uses ptr = Some o → (∀ path, o_kind o ≠ OPkgName path) → go_object q_objs o.
Proof.
  intros Hu Hk. apply tab_in in Hu. cbn in Hu.
  repeat (destruct Hu as [Hu|Hu]; [injection Hu as _ <-;
    first [by destruct (Hk "fmt")
          |split; [reflexivity|reflexivity|reflexivity|first [by split|by constructor; [left|]]|done]]|]). done.
Qed.
Lemma q_typed : typed_file p_fs q_ti q_imports q_objs q_file.
Proof. split; [apply q_wf|apply q_go_object|]. intros o path H. by apply elem_of_nil in H. Qed.
Lemma q_defs_at : defs_at_idents q_ti q_file.
Proof.
  split.
  - intros i d Hi Hd. rewrite <- elem_of_node_idents in Hi. enum Hi; subst i; vm_compute in Hd; try discriminate; injection Hd as <-; reflexivity.
  - vm_compute. repeat (apply NoDup_cons; split; [intros H; enum H|]). constructor.
Qed.
(** the finished document *)
Definition q_doc : list occurrence :=
  match visit_file p_env q_g p_fs q_pkg q_ti q_tbl q_imports q_pkg_occ (fresh_caches "ex.org" "v1.0.0") q_file with
  | Ok st => f_occs st | Panic _ => [] end.
Definition q_view : list (string * nat * list Z * bool) :=
  map (λ o, (oc_symbol o, oc_roles o, oc_range o, bool_decide (oc_diags o ≠ []))) q_doc.
Lemma q_doc_view : q_view =
  [("scip-go gomod ex.org v1.0.0 `ex.org/p`/", 1%nat, [0; 8; 9], false);
   ("scip-go gomod github.com/golang/go/src go1.25 fmt/", 8%nat, [0; 18; 19], false);
   ("scip-go gomod github.com/golang/go/src go1.25 fmt/", 8%nat, [0; 21; 24], false);
   ("scip-go gomod ex.org v1.0.0 `ex.org/p`/F().", 1%nat, [0; 34; 35], true);
   ("local 0", 1%nat, [0; 36; 37], false);
   ("scip-go gomod ex.org v1.0.0 `ex.org/p`/E#", 8%nat, [0; 41; 42], false);
   ("local 1", 1%nat, [0; 44; 45], false);
   ("local 2", 1%nat, [0; 51; 52], false);
   ("local 0", 8%nat, [0; 53; 54], false);
   ("local 3", 1%nat, [0; 61; 62], false);
   ("scip-go gomod github.com/golang/go/src go1.25 fmt/", 8%nat, [0; 68; 69], false);
   ("scip-go gomod github.com/golang/go/src go1.25 fmt/Println().", 8%nat, [0; 70; 77], false);
   ("local 3", 8%nat, [0; 78; 79], false);
   ("local 3", 8%nat, [0; 88; 89], false)]%Z.
Proof. vm_compute. reflexivity. Qed.
