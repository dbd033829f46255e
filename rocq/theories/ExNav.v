(** A type switch, for C58_type_switch and C57_type_switches.
    package p
    func G(y any) { switch x := y.(type) { case int: f(x); case string: f(x) } } *)
From Coq Require Import Ascii String.
From stdpp Require Import prelude strings gmap sorting.
From Verif Require Import GoStr Scip GoTypes Packages Symbols Document Lookup Pass1 Pass2 Paths
  Loader Index Ast SpecSymbol SpecDecl SpecLookup SpecOcc SpecIndex
  P_Symbols P_Pass1 P_Link P_Lookup P_Pass2 P_Occ P_Scope P_Index PropDecl PropOcc PropIndex PropDet PropCross ExDecl ExOcc ExIndex ExCross PropNav PropSwitch.
Open Scope string_scope.
Open Scope list_scope.

Definition s_guard : node := NOther 47 [NIdent (mk 5 "x" 47); NOther 52 [NIdent (mk 6 "y" 52)]].
Definition s_int : node := NOther 60 [NIdent (mk 7 "int" 65); NOther 70 [NIdent (mk 8 "x" 75)]].
Definition s_string : node := NOther 80 [NIdent (mk 9 "string" 85); NOther 95 [NIdent (mk 10 "x" 96)]].
Definition s_G : node := NFuncDecl "" 12 120 None (mk 1 "G" 17)
  (NFuncType 12 empty_fields (NFieldList [NField "" "" [mk 2 "y" 19] (NIdent (mk 3 "any" 21))]) empty_fields)
  (Some (NBlockStmt 30 [NOther 40 [s_guard; NBlockStmt 58 [s_int; s_string]]])).
Definition s_file : node := NFile 1 false "" (mk 0 "p" 9) [s_G].
Definition s_tpkg : tpkg := TPkg "ex.org/p" [].
Definition s_oG : obj := Obj 1 "G" (Some s_tpkg) 17 (OFunc (Some None)) (TSig [] [] false) None.
Definition s_oy : obj := Obj 2 "y" (Some s_tpkg) 19 (OVar false) (TInterface [] "") None.
Definition s_c1 : obj := Obj 3 "x" (Some s_tpkg) 47 (OVar false) (TBasic BInt false) None.
Definition s_c2 : obj := Obj 4 "x" (Some s_tpkg) 47 (OVar false) (TBasic BString false) None.
Definition s_any : obj := Obj 5 "any" None 0 OTypeName (TInterface [] "") None.
Definition s_oint : obj := Obj 6 "int" None 0 OTypeName (TBasic BInt false) None.
Definition s_ostr : obj := Obj 7 "string" None 0 OTypeName (TBasic BString false) None.
Definition s_objs (i : nat) : option obj := List.find (λ o, Nat.eqb (o_id o) i) [s_oG; s_oy; s_c1; s_c2; s_any; s_oint; s_ostr].
Definition s_defs : nat → option obj := tab [(1, s_oG); (2, s_oy)].
Definition s_uses : nat → option obj := tab [(3, s_any); (6, s_oy); (7, s_oint); (8, s_c1); (9, s_ostr); (10, s_c2)].
Definition s_ti : tinfo := TInfo s_defs s_uses (λ _, None) [s_c1; s_c2] (λ _, None) (λ _, "sig").
(** the other order *)
Definition s_ti' : tinfo := TInfo s_defs s_uses (λ _, None) [s_c2; s_c1] (λ _, None) (λ _, "sig").
Definition s_p : gpkg := GPkg 1 "ex.org/p" "p" (Some a_mod) [] [s_file] (Some s_tpkg) (Some s_ti).
Definition s_h : pheap := {[ 1 := s_p ]}.
Definition s_all : ptab := {[ "ex.org/p" := 1 ]}.
Definition S_ : project := Project p_env s_objs x_fs s_h s_all s_all [s_p].

Lemma s_typed : typed_file x_fs s_ti (imports_of s_h s_p) s_objs s_file ∧ defs_at_idents s_ti s_file.
Proof.
  split.
  - split.
    2:{ intros ptr o Hu Hk. apply tab_in in Hu. cbn in Hu. repeat (destruct Hu as [Hu|Hu]; [injection Hu as <- <-; split; [reflexivity|reflexivity|reflexivity|first [by split|by constructor; [left|]]|done]|]). done. }
    2:{ intros o path Ho. enum Ho; subst o; done. }
    split.
    + by eexists _, _, _, _, _.
    + intros decl m c Hd Hm Hc.
      assert (H : forallb (λ decl, forallb (λ m, forallb (λ c, match c with NFuncDecl _ _ _ _ _ _ _ | NFile _ _ _ _ _ => false | _ => true end)
        (node_children m)) (subnodes decl)) (file_decls s_file) = true) by reflexivity.
      rewrite forallb_forall in H. specialize (H _ (proj1 (elem_of_list_In _ _) Hd)).
      rewrite forallb_forall in H. specialize (H _ (proj1 (elem_of_list_In _ _) Hm)).
      rewrite forallb_forall in H. specialize (H _ (proj1 (elem_of_list_In _ _) Hc)). by destruct c.
    + intros decl Hd. enum Hd; by subst.
    + vm_compute; repeat (apply NoDup_cons; split; [intros H; enum H|]); constructor.
    + intros par i o path Hi Hu Hk. exfalso. apply tab_in in Hu. cbn in Hu.
      repeat (destruct Hu as [Hu|Hu]; [injection Hu as E' <-; discriminate|]). done.
    + intros ptr o path [H|H] Hk; apply tab_in in H; cbn in H;
        repeat (destruct H as [H|H]; [injection H as _ <-; try discriminate; done|]); done.
    + intros i Hi. rewrite <- elem_of_node_idents in Hi. enum Hi; subst i; fits.
    + intros d p e r nm t b H. enum H. injection H as <- <- <- <- <- <- <-. fits.
    + intros ptr nm p l path imp Hin Himp. enum Hin.
  - split.
    + intros i d Hi Hd. rewrite <- elem_of_node_idents in Hi. enum Hi; subst i; vm_compute in Hd; try discriminate; injection Hd as <-; reflexivity.
    + vm_compute; repeat (apply NoDup_cons; split; [intros H; enum H|]); constructor.
Qed.
Lemma s_indexable : indexable s_objs x_fs s_h s_all s_all [s_p].
Proof.
  split.
  - split; [|split].
    + intros k q H%x_in. enum H; injection H as <- <-; eexists _, _; by split_and!.
    + intros k q H%x_in. enum H; injection H as <- <-; eexists _, _; by split_and!.
    + intros k q p H%x_in Hh. enum H; injection H as <- <-; vm_compute in Hh; injection Hh as <-;
        eexists _, _; split; reflexivity || split; reflexivity.
  - split.
    + split; [|split].
      * intros k. cbn [map p_path s_p]. split.
        -- intros ->%elem_of_list_singleton. by eexists.
        -- intros [q H%x_in]. enum H; injection H as <- <-; left.
      * apply NoDup_singleton.
      * cbn. repeat constructor.
    + intros p Hp. enum Hp; subst p; eexists; by split.
  - split.
    + intros p f Hp Hf. apply elem_of_list_singleton in Hp as ->. apply elem_of_list_singleton in Hf as ->.
      exists s_ti, "/src/p.go". destruct s_typed. split; [done|]. split; [done|]. split; done.
    + intros i j p f q f' name Hi Hj Hf Hf'. destruct i as [|i]; [|by destruct i]. destruct j as [|j]; [done|by destruct j].
  - intros p f name i Hp Hf Hfn Hi. rewrite <- elem_of_node_idents in Hi.
    apply elem_of_list_singleton in Hp as ->. apply elem_of_list_singleton in Hf as ->. unfold file_of in Hfn. vm_compute in Hfn. injection Hfn as <-.
    enum Hi; subst i; reflexivity.
Qed.
Definition s_run : list message * Index.outcome :=
  Index.index p_digest p_env x_fs s_h (λ o, o_name o) x_mo (λ _ _, None) x_impl "" "/src" "v1.0.0" false x_meta
    (LoadOk s_all s_all) ["ex.org/p"] ["ex.org/p"] ["ex.org/p"].
Definition s_msgs : list message := s_run.1.
Lemma s_success : s_run = (s_msgs, Returned None).
Proof. vm_compute. reflexivity. Qed.
Lemma s_indexed : indexed S_ s_msgs.
Proof.
  eexists p_digest, (λ o, o_name o), x_mo, "/src", "v1.0.0", x_impl, "", ["ex.org/p"], ["ex.org/p"], ["ex.org/p"], false, x_meta, (λ _ _, None).
  split; [apply s_indexable|]. split; [apply x_mo_ok|].
  split; [unfold key_order; vm_compute; repeat constructor|]. split; [unfold key_order; vm_compute; repeat constructor|].
  split; [unfold key_order; vm_compute; repeat constructor|]. split; [|exact s_success].
  intros g g' k' exts _. unfold x_impl. intros [= <- <- <-]. split; [apply same_tables_refl|apply fresh_ok].
Qed.
(** the x of the second clause refers to the x of the guard *)
Example C58_type_switch_example : ∃ s, is_local s ∧ defines S_ s_msgs s_p s_file (mk 5 "x" 47) s ∧ refers S_ s_msgs s_p s_file (mk 10 "x" 96) s.
Proof.
  eapply (C58_type_switch S_ s_msgs s_p s_file s_ti (take 12 (file_nodes s_file)) (Some s_guard) (mk 5 "x" 47)
    (take 10 (drop 13 (file_nodes s_file))) _ (mk 10 "x" 96) (drop 24 (file_nodes s_file)) s_c1 s_c2).
  - apply s_indexed.
  - left.
  - left.
  - done.
  - vm_compute. reflexivity.
  - split; [done|]. split; [|done]. intros o pp Hu. vm_compute in Hu. done.
  - split; [done|]. split; [|done]. intros o pp Hu. vm_compute in Hu. by injection Hu as <-.
  - intros c Hc. enum Hc; subst c; done.
  - left.
  - done.
  - done.
  - done.
Qed.

(** two visits of the file, with the clause variables in either order *)
Definition s_tbl : ptable := match visit_package_table p_digest s_ti x_fs p_env s_p with Ok t => t | Panic _ => ∅ end.
Definition s_g : global := match set_pkg_symbol new_global s_p with Ok g => g_add g s_p s_tbl | Panic _ => new_global end.
Definition s_occ : occurrence := Definition_ "scip-go gomod ex.org v1.0.0 `ex.org/p`/" [0; 8; 9]%Z [] false.
Definition s_visit (t : tinfo) : res fstate :=
  visit_file p_env s_g x_fs s_p t s_tbl (imports_of s_h s_p) s_occ (fresh_caches "/src" "v1.0.0") s_file.
Example C57_type_switches_example : reordered s_ti s_ti' ∧ s_ti ≠ s_ti' ∧ clause_variables s_ti ∧
  typed_file x_fs s_ti (imports_of s_h s_p) s_objs s_file ∧
  (∃ st, s_visit s_ti = Ok st ∧ visited p_env s_objs "/src" "v1.0.0" s_g x_fs s_p s_ti s_tbl (imports_of s_h s_p) s_occ s_file st) ∧
  (∃ st, s_visit s_ti' = Ok st ∧ visited p_env s_objs "/src" "v1.0.0" s_g x_fs s_p s_ti' s_tbl (imports_of s_h s_p) s_occ s_file st).
Proof.
  split; [split; try done; apply perm_swap|]. split; [intros H; discriminate H|].
  split.
  { split.
    - intros c Hc. enum Hc; by subst c.
    - intros c c' Hc Hc'. enum Hc; enum Hc'; by subst. }
  split; [apply s_typed|].
  assert (H : ∀ t, is_Some (match s_visit t with Ok st => Some st | Panic _ => None end) →
    ∃ st, s_visit t = Ok st ∧ visited p_env s_objs "/src" "v1.0.0" s_g x_fs s_p t s_tbl (imports_of s_h s_p) s_occ s_file st).
  { intros t [st Hst]. destruct (s_visit t) as [st'|] eqn:E; [|done]. exists st'. split; [done|].
    exists [], (fresh_caches "/src" "v1.0.0"). split; [constructor|]. split; [reflexivity|]. exact E. }
  split; apply H; vm_compute; eauto.
Qed.
