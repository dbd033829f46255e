(** Members of anonymous types that the declaration pass does not reach, for C63.
    p.go:  package p
           type S []struct { B int }
           type U struct { C chan struct { D int } }
           var v map[int]struct { E int }
    q.go:  package p
           var s S
           var w = s[0].B *)
From Coq Require Import Ascii String.
From stdpp Require Import prelude strings gmap sorting.
From Verif Require Import GoStr Scip GoTypes Packages Symbols Document Lookup Pass1 Pass2 Paths
  Loader Index Ast SpecSymbol SpecDecl SpecLookup SpecOcc SpecIndex
  P_Symbols P_Pass1 P_Link P_Lookup P_Pass2 P_Occ P_Scope P_Index PropDecl PropOcc PropIndex PropDet PropAnon PropCross ExDecl ExOcc ExIndex ExCross PropNav PropLocal ExLocal PropMember ExMember PropReach ExReach PropBehind.
Open Scope string_scope.
Open Scope list_scope.

Definition bh_int (k : nat) (p : Z) : node := NIdent (mk k "int" p).
Definition bh_B : Ast.ident := mk 2 "B" 35.
Definition bh_D : Ast.ident := mk 6 "D" 82.
Definition bh_E : Ast.ident := mk 10 "E" 124.
Definition bh_slice : node := NArrayType 19 None (NStructType 50 21 (NFieldList [NField "" "" [bh_B] (bh_int 3 37)])).
Definition bh_chan : node := NChanType 66 (NStructType 52 71 (NFieldList [NField "" "" [bh_D] (bh_int 7 84)])).
Definition bh_struct : node := NStructType 51 54 (NFieldList [NField "" "" [mk 5 "C" 63] bh_chan]).
Definition bh_map : node := NMapType 105 (bh_int 9 109) (NStructType 53 113 (NFieldList [NField "" "" [bh_E] (bh_int 11 126)])).
Definition bh_dS : node := NGenDecl 12 TYPE "" [NTypeSpec "" (mk 1 "S" 17) empty_fields bh_slice].
Definition bh_dU : node := NGenDecl 45 TYPE "" [NTypeSpec "" (mk 4 "U" 52) empty_fields bh_struct].
Definition bh_dv : node := NGenDecl 99 VAR "" [NValueSpec "" "" [mk 8 "v" 103] (Some bh_map) []].
Definition bh_file1 : node := NFile 1 false "" (mk 0 "p" 9) [bh_dS; bh_dU; bh_dv].
Definition bh_selB : node := NSelectorExpr (NIndexExpr (NIdent (mk 16 "s" 338)) (NOther 340 [])) (mk 17 "B" 343).
Definition bh_ds : node := NGenDecl 310 VAR "" [NValueSpec "" "" [mk 13 "s" 314] (Some (NIdent (mk 14 "S" 316))) []].
Definition bh_dw : node := NGenDecl 330 VAR "" [NValueSpec "" "" [mk 15 "w" 334] None [bh_selB]].
Definition bh_file2 : node := NFile 201 false "" (mk 12 "p" 210) [bh_ds; bh_dw].
Definition bh_nS : tname := TName 1 (Some "ex.org/p") "S".
Definition bh_nU : tname := TName 2 (Some "ex.org/p") "U".
Definition bh_tS : ty := TNamed bh_nS [].
Definition bh_tU : ty := TNamed bh_nU [].
Definition bh_tint : ty := TBasic BInt false.
Definition bh_tpkg : tpkg := TPkg "ex.org/p" [SEntry "S" true bh_tS; SEntry "U" true bh_tU].
Definition bh_oS : obj := Obj 1 "S" (Some bh_tpkg) 17 OTypeName bh_tS None.
Definition bh_oB : obj := Obj 2 "B" (Some bh_tpkg) 35 (OVar true) bh_tint None.
Definition bh_oU : obj := Obj 3 "U" (Some bh_tpkg) 52 OTypeName bh_tU None.
Definition bh_oC : obj := Obj 4 "C" (Some bh_tpkg) 63 (OVar true) (TStruct []) None.
Definition bh_oD : obj := Obj 5 "D" (Some bh_tpkg) 82 (OVar true) bh_tint None.
Definition bh_ov : obj := Obj 6 "v" (Some bh_tpkg) 103 (OVar false) (TStruct []) None.
Definition bh_oE : obj := Obj 7 "E" (Some bh_tpkg) 124 (OVar true) bh_tint None.
Definition bh_oint : obj := Obj 8 "int" None 0 OTypeName bh_tint None.
Definition bh_os : obj := Obj 9 "s" (Some bh_tpkg) 314 (OVar false) bh_tS None.
Definition bh_ow : obj := Obj 10 "w" (Some bh_tpkg) 334 (OVar false) bh_tint None.
Definition bh_objs (i : nat) : option obj := List.find (λ o, Nat.eqb (o_id o) i) [bh_oS; bh_oB; bh_oU; bh_oC; bh_oD; bh_ov; bh_oE; bh_oint; bh_os; bh_ow].
Definition bh_defs : nat → option obj := tab [(1, bh_oS); (2, bh_oB); (4, bh_oU); (5, bh_oC); (6, bh_oD); (8, bh_ov); (10, bh_oE); (13, bh_os); (15, bh_ow)].
Definition bh_uses : nat → option obj := tab [(3, bh_oint); (7, bh_oint); (9, bh_oint); (11, bh_oint); (14, bh_oS); (16, bh_os); (17, bh_oB)].
Definition bh_ti : tinfo := TInfo bh_defs bh_uses (λ _, None) [] (λ r, None) (λ _, "sig").
Definition bh_p : gpkg := GPkg 1 "ex.org/p" "p" (Some a_mod) [] [bh_file1; bh_file2] (Some bh_tpkg) (Some bh_ti).
Definition bh_h : pheap := {[ 1 := bh_p ]}.
Definition bh_all : ptab := {[ "ex.org/p" := 1 ]}.
Definition BH_ : project := Project p_env bh_objs rc_fs bh_h bh_all bh_all [bh_p].

Lemma bh_typed f : f ∈ [bh_file1; bh_file2] → typed_file rc_fs bh_ti (imports_of bh_h bh_p) bh_objs f ∧ defs_at_idents bh_ti f.
Proof.
  intros Hf. split.
  - split.
    2:{ intros ptr o Hu Hk. apply tab_in in Hu. cbn in Hu. repeat (destruct Hu as [Hu|Hu]; [injection Hu as <- <-; split; [reflexivity|reflexivity|reflexivity|first [by split|by constructor; [left|]]|done]|]). done. }
    2:{ intros o path Ho. enum Ho; subst o; done. }
    split.
    + enum Hf; subst f; by eexists _, _, _, _, _.
    + intros decl m c Hd Hm Hc.
      assert (H : forallb (λ f, forallb (λ decl, forallb (λ m, forallb (λ c, match c with NFuncDecl _ _ _ _ _ _ _ | NFile _ _ _ _ _ => false | _ => true end)
        (node_children m)) (subnodes decl)) (file_decls f)) [bh_file1; bh_file2] = true) by reflexivity.
      rewrite forallb_forall in H. specialize (H _ (proj1 (elem_of_list_In _ _) Hf)).
      rewrite forallb_forall in H. specialize (H _ (proj1 (elem_of_list_In _ _) Hd)).
      rewrite forallb_forall in H. specialize (H _ (proj1 (elem_of_list_In _ _) Hm)).
      rewrite forallb_forall in H. specialize (H _ (proj1 (elem_of_list_In _ _) Hc)). by destruct c.
    + intros decl Hd. enum Hf; subst f; enum Hd; by subst.
    + enum Hf; subst f; vm_compute; repeat (apply NoDup_cons; split; [intros H; enum H|]); constructor.
    + intros par i o path Hi Hu Hk. exfalso. apply tab_in in Hu. cbn in Hu.
      repeat (destruct Hu as [Hu|Hu]; [injection Hu as E' <-; discriminate|]). done.
    + intros ptr o path [H|H] Hk; apply tab_in in H; cbn in H;
        repeat (destruct H as [H|H]; [injection H as _ <-; try discriminate; done|]); done.
    + intros i Hi. rewrite <- elem_of_node_idents in Hi. enum Hf; subst f; enum Hi; subst i; fits.
    + intros d p e r nm t b H. enum Hf; subst f; enum H.
    + intros ptr nm p l path imp Hin Himp. enum Hf; subst f; enum Hin.
  - split.
    + intros i d Hi Hd. rewrite <- elem_of_node_idents in Hi. enum Hf; subst f; enum Hi; subst i; vm_compute in Hd; try discriminate; injection Hd as <-; reflexivity.
    + enum Hf; subst f; vm_compute; repeat (apply NoDup_cons; split; [intros H; enum H|]); constructor.
Qed.
Lemma bh_indexable : indexable bh_objs rc_fs bh_h bh_all bh_all [bh_p].
Proof.
  split.
  - split; [|split].
    + intros k q H%x_in. enum H; injection H as <- <-; eexists _, _; by split_and!.
    + intros k q H%x_in. enum H; injection H as <- <-; eexists _, _; by split_and!.
    + intros k q p H%x_in Hh. enum H; injection H as <- <-; vm_compute in Hh; injection Hh as <-;
        eexists _, _; split; reflexivity || split; reflexivity.
  - split.
    + split; [|split].
      * intros k. cbn [map p_path bh_p]. split.
        -- intros ->%elem_of_list_singleton. by eexists.
        -- intros [q H%x_in]. enum H; injection H as <- <-; left.
      * apply NoDup_singleton.
      * cbn. repeat constructor.
    + intros p Hp. enum Hp; subst p; eexists; by split.
  - split.
    + intros p f Hp Hf. apply elem_of_list_singleton in Hp as ->. destruct (bh_typed f Hf) as [H1 H2].
      exists bh_ti. cbn [p_syntax bh_p] in Hf. enum Hf; subst f; eexists; repeat (split; [done|]); reflexivity.
    + intros i j p f q f' name Hi Hj Hf Hf'.
      assert (NoDup (map (λ e : gpkg * node, rc_name (file_package_pos e.2)) (files_in_order [bh_p]))) as Hnd.
      { vm_compute. repeat (apply NoDup_cons; split; [intros H; enum H|]). constructor. }
      eapply (NoDup_lookup _ i j (Some name) Hnd); rewrite list_lookup_fmap.
      * rewrite Hi. cbn. by f_equal.
      * rewrite Hj. cbn. by f_equal.
  - intros p f name i Hp Hf Hfn Hi. rewrite <- elem_of_node_idents in Hi.
    apply elem_of_list_singleton in Hp as ->. unfold file_of in Hfn. cbn [p_syntax bh_p] in Hf.
    enum Hf; subst f; vm_compute in Hfn; injection Hfn as <-; enum Hi; subst i; reflexivity.
Qed.
Definition bh_run : list message * Index.outcome :=
  Index.index p_digest p_env rc_fs bh_h (λ o, o_name o) x_mo (λ _ _, None) x_impl "" "/src" "v1.0.0" false x_meta
    (LoadOk bh_all bh_all) ["ex.org/p"] ["ex.org/p"] ["ex.org/p"].
Definition bh_msgs : list message := bh_run.1.
Lemma bh_success : bh_run = (bh_msgs, Returned None).
Proof. vm_compute. reflexivity. Qed.
Lemma bh_indexed : indexed_with p_digest BH_ bh_msgs.
Proof.
  eexists (λ o, o_name o), x_mo, "/src", "v1.0.0", x_impl, "", ["ex.org/p"], ["ex.org/p"], ["ex.org/p"], false, x_meta, (λ _ _, None).
  split; [apply bh_indexable|]. split; [apply x_mo_ok|].
  split; [unfold key_order; vm_compute; repeat constructor|]. split; [unfold key_order; vm_compute; repeat constructor|].
  split; [unfold key_order; vm_compute; repeat constructor|]. split; [|exact bh_success].
  intros g g' k' exts _. unfold x_impl. intros [= <- <- <-]. split; [apply same_tables_refl|apply fresh_ok].
Qed.

Lemma bh_wf : wf_pkg_pos bh_p.
Proof. apply wf_pkgb_ok. vm_compute. reflexivity. Qed.
Lemma bh_common : pkg_common_value_types bh_p.
Proof. apply common_valuesb_ok. vm_compute. reflexivity. Qed.



(** each of the three cases of C63_behind_refuted *)
Lemma bh_behind i : i ∈ [bh_B; bh_D; bh_E] → behind_declared bh_file1 i.
Proof.
  intros Hi. enum Hi; subst i.
  - eapply (bd_type _ _ _ _ _ _ _ 12 "" _ "" (mk 1 "S" 17) empty_fields bh_slice); [reflexivity|left|left|by left; constructor|]. rewrite elem_of_list_In. vm_compute. tauto.
  - eapply (bd_concealed _ _ _ _ _ _ _ 45 "" _ "" (mk 4 "U" 52) empty_fields bh_struct); [reflexivity|right; left|left|done|].
    eapply cc_struct; [left|done|]. apply cc_behind; [intros []|intros []|]. rewrite elem_of_list_In. vm_compute. tauto.
  - eapply (bd_value _ _ _ _ _ _ _ 99 VAR "" _ "" "" [mk 8 "v" 103] bh_map []); [reflexivity|by left|right; right; left|left|done|]. rewrite elem_of_list_In. vm_compute. tauto.
Qed.
Lemma bh_nodes i : i ∈ [bh_B; bh_D; bh_E] → ∃ par d, (par, NIdent i) ∈ file_nodes bh_file1 ∧ (0 < id_pos i)%Z ∧ visible BH_ bh_ti par i ∧
  ti_defs bh_ti (id_ptr i) = Some d.
Proof.
  intros Hi. enum Hi; subst i.
  - exists (Some (NField "" "" [bh_B] (bh_int 3 37))), bh_oB. split; [rewrite elem_of_list_In; vm_compute; tauto|]. split; [done|].
    split; [|done]. split; [done|]. split; [|done]. intros o pp H. discriminate H.
  - exists (Some (NField "" "" [bh_D] (bh_int 7 84))), bh_oD. split; [rewrite elem_of_list_In; vm_compute; tauto|]. split; [done|].
    split; [|done]. split; [done|]. split; [|done]. intros o pp H. discriminate H.
  - exists (Some (NField "" "" [bh_E] (bh_int 11 126))), bh_oE. split; [rewrite elem_of_list_In; vm_compute; tauto|]. split; [done|].
    split; [|done]. split; [done|]. split; [|done]. intros o pp H. discriminate H.
Qed.
Example C63_behind_example : ∀ i, i ∈ [bh_B; bh_D; bh_E] → ∃ s, is_local s ∧ defines BH_ bh_msgs bh_p bh_file1 i s.
Proof.
  intros i Hi. pose proof (bh_behind i Hi) as Hb. destruct (bh_nodes i Hi) as (par & d & H1 & H2 & H3 & H4).
  eapply (C63_behind_refuted BH_ bh_msgs bh_p bh_file1 bh_ti par i d).
  - eapply indexed_with_indexed, bh_indexed.
  - left.
  - left.
  - reflexivity.
  - apply bh_wf.
  - exact H1.
  - exact Hb.
  - exact H2.
  - exact H3.
  - intros c Hc. by apply elem_of_nil in Hc.
  - exact H4.
Qed.

(** C63 fails for  type S []struct { B int } : B is a local symbol only, and s[0].B in another file is no reference. *)
Lemma bh_use_B : use_of BH_ bh_p (id_pos bh_B) bh_p bh_file2 (mk 17 "B" 343).
Proof.
  split; [left|right; left| |by left].
  exists bh_ti, (Some bh_selB), bh_oB, bh_tpkg. split; [done|]. split; [rewrite elem_of_list_In; vm_compute; tauto|].
  split; [split; [done|split; [intros ? ? Hu; vm_compute in Hu; by injection Hu as <-|done]]|].
  split; [intros c Hc; by apply elem_of_nil in Hc|].
  do 6 (split; [done|]). intros c Hc; by apply elem_of_nil in Hc.
Qed.
Theorem C63_type_slice_refuted : ∃ digest P msgs p f ti i def p2 f2 i2 a h d nm decls q doc specs sd T tps t l r fields,
  indexed_with digest P msgs ∧ p ∈ pr_pkgs P ∧ f ∈ p_syntax p ∧ p_info p = Some ti ∧ wf_pkg_pos p ∧ pkg_common_value_types p ∧
  f = NFile a h d nm decls ∧ NGenDecl q TYPE doc specs ∈ decls ∧ NTypeSpec sd T tps t ∈ specs ∧ behind t l ∧
  literal l r fields ∧ member fields [] i ∧ ti_defs ti (id_ptr i) = Some def ∧ use_of P p (id_pos i) p2 f2 i2 ∧
  (∀ s, defines P msgs p f i s → s = "local 0") ∧ ∀ s, ¬ refers P msgs p2 f2 i2 s.
Proof.
  exists p_digest, BH_, bh_msgs, bh_p, bh_file1, bh_ti, bh_B, bh_oB, bh_p, bh_file2, (mk 17 "B" 343).
  eexists _, _, _, _, _, _, _, _, _, _, _, bh_slice, (NStructType 50 21 (NFieldList [NField "" "" [bh_B] (bh_int 3 37)])), 50, [NField "" "" [bh_B] (bh_int 3 37)].
  split; [apply bh_indexed|]. split; [left|]. split; [left|]. split; [done|]. split; [apply bh_wf|]. split; [apply bh_common|].
  split; [reflexivity|]. split; [left|]. split; [left|]. split; [by eapply bh_elem; constructor|]. split; [constructor|].
  split; [by eapply mem_named; left|]. split; [done|]. split; [apply bh_use_B|].
  assert (Hk : ∀ k, files_in_order (pr_pkgs BH_) !! k = Some (bh_p, bh_file1) → k = 0).
  { intros k Hk. destruct k as [|[|k]]; [done|discriminate|by destruct k]. }
  split.
  - destruct (documents bh_msgs !! 0) as [d|] eqn:Ed; [|vm_compute in Ed; discriminate].
    eapply (rc_defines_only BH_ bh_msgs bh_p bh_file1 bh_B "local 0" 0 d Hk Ed).
    assert (H : match documents bh_msgs !! 0 with
      | Some d => forallb (λ o, implb (Nat.eqb (oc_roles o) 1 && bool_decide (oc_range o = ident_span (pr_fs BH_) bh_B)) (String.eqb (oc_symbol o) "local 0")) (d_occs d)
      | None => false end = true) by (vm_compute; reflexivity). rewrite Ed in H. exact H.
  - apply (mb_no_range BH_ bh_msgs bh_p bh_file2 (mk 17 "B" 343) 1); [left| |vm_compute; reflexivity].
    intros k Hk'. destruct k as [|[|k]]; [discriminate|done|by destruct k].
Qed.
Print Assumptions C63_type_slice_refuted.
