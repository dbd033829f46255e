(** Members of anonymous types in function results, for C68.
    p.go:  package p
           func F() struct { A int } { return }
           func G() interface { M() } { return }
           func H() (interface { N() }, interface { N() }) { return }
    q.go:  package p
           var y = F().A
           var z = G().M *)
From Coq Require Import Ascii String.
From stdpp Require Import prelude strings gmap sorting.
From Verif Require Import GoStr Scip GoTypes Packages Symbols Document Lookup Pass1 Pass2 Paths
  Loader Index Ast SpecSymbol SpecDecl SpecLookup SpecOcc SpecIndex
  P_Symbols P_Pass1 P_Link P_Lookup P_Pass2 P_Occ P_Scope P_Index PropDecl PropOcc PropIndex PropDet PropAnon PropCross ExDecl ExOcc ExIndex ExCross PropNav PropLocal ExLocal PropMember ExMember PropResult ExReach.
Open Scope string_scope.
Open Scope list_scope.

Definition rs_name (p : Z) : option string :=
  if Z.leb p 200 then Some "/src/p.go" else if Z.leb p 400 then Some "/src/q.go" else None.
Definition rs_fs : fset :=
  FSet (λ p, Position (match rs_name p with Some n => n | None => "" end) 1 (p mod 201)) rs_name.
Definition rs_A : Ast.ident := mk 2 "A" 35.
Definition rs_M : Ast.ident := mk 5 "M" 75.
Definition rs_N1 : Ast.ident := mk 7 "N" 115.
Definition rs_N2 : Ast.ident := mk 8 "N" 132.
Definition rs_ftype (p : Z) : node := NFuncType p empty_fields empty_fields empty_fields.
Definition rs_afields : list node := [NField "" "" [rs_A] (NIdent (mk 3 "int" 37))].
Definition rs_mM : node := NField "" "" [rs_M] (rs_ftype 76).
Definition rs_mN1 : node := NField "" "" [rs_N1] (rs_ftype 116).
Definition rs_mN2 : node := NField "" "" [rs_N2] (rs_ftype 133).
Definition rs_lit : node := NStructType 51 26 (NFieldList rs_afields).
Definition rs_rF : node := NFieldList [NField "" "" [] rs_lit].
Definition rs_rG : node := NFieldList [NField "" "" [] (NInterfaceType 52 62 (NFieldList [rs_mM]))].
Definition rs_rH : node := NFieldList [NField "" "" [] (NInterfaceType 53 103 (NFieldList [rs_mN1])); NField "" "" [] (NInterfaceType 54 121 (NFieldList [rs_mN2]))].
Definition rs_dF : node := NFuncDecl "" 12 45 None (mk 1 "F" 17) (NFuncType 18 empty_fields empty_fields rs_rF) (Some (NBlockStmt 40 [])).
Definition rs_dG : node := NFuncDecl "" 50 90 None (mk 4 "G" 55) (NFuncType 56 empty_fields empty_fields rs_rG) (Some (NBlockStmt 82 [])).
Definition rs_dH : node := NFuncDecl "" 92 150 None (mk 6 "H" 97) (NFuncType 98 empty_fields empty_fields rs_rH) (Some (NBlockStmt 140 [])).
Definition rs_file1 : node := NFile 1 false "" (mk 0 "p" 9) [rs_dF; rs_dG; rs_dH].
Definition rs_selA : node := NSelectorExpr (NOther 298 [NIdent (mk 13 "F" 298)]) (mk 14 "A" 302).
Definition rs_selM : node := NSelectorExpr (NOther 318 [NIdent (mk 16 "G" 318)]) (mk 17 "M" 322).
Definition rs_dy : node := NGenDecl 290 VAR "" [NValueSpec "" "" [mk 12 "y" 294] None [rs_selA]].
Definition rs_dz : node := NGenDecl 310 VAR "" [NValueSpec "" "" [mk 15 "z" 314] None [rs_selM]].
Definition rs_file2 : node := NFile 201 false "" (mk 11 "p" 210) [rs_dy; rs_dz].
Definition rs_int : ty := TBasic BInt false.
Definition rs_sig : ty := TSig [] [] false.
Definition rs_tpkg : tpkg := TPkg "ex.org/p" [].
Definition rs_recv : option (option ty) := Some (Some (TInterface [] "")).
Definition rs_oF : obj := Obj 1 "F" (Some rs_tpkg) 17 (OFunc (Some None)) rs_sig None.
Definition rs_oA : obj := Obj 2 "A" (Some rs_tpkg) 35 (OVar true) rs_int None.
Definition rs_oint : obj := Obj 3 "int" None 0 OTypeName rs_int None.
Definition rs_oG : obj := Obj 4 "G" (Some rs_tpkg) 55 (OFunc (Some None)) rs_sig None.
Definition rs_oM : obj := Obj 5 "M" (Some rs_tpkg) 75 (OFunc rs_recv) rs_sig None.
Definition rs_oH : obj := Obj 6 "H" (Some rs_tpkg) 97 (OFunc (Some None)) rs_sig None.
Definition rs_oN1 : obj := Obj 7 "N" (Some rs_tpkg) 115 (OFunc rs_recv) rs_sig None.
Definition rs_oN2 : obj := Obj 8 "N" (Some rs_tpkg) 132 (OFunc rs_recv) rs_sig None.
Definition rs_oy : obj := Obj 10 "y" (Some rs_tpkg) 294 (OVar false) rs_int None.
Definition rs_oz : obj := Obj 11 "z" (Some rs_tpkg) 314 (OVar false) rs_sig None.
Definition rs_objs (i : nat) : option obj := List.find (λ o, Nat.eqb (o_id o) i) [rs_oF; rs_oA; rs_oint; rs_oG; rs_oM; rs_oH; rs_oN1; rs_oN2; rs_oy; rs_oz].
Definition rs_defs : nat → option obj := tab [(1, rs_oF); (2, rs_oA); (4, rs_oG); (5, rs_oM); (6, rs_oH); (7, rs_oN1); (8, rs_oN2); (12, rs_oy); (15, rs_oz)].
Definition rs_uses : nat → option obj := tab [(3, rs_oint); (13, rs_oF); (14, rs_oA); (16, rs_oG); (17, rs_oM)].
Definition rs_ti : tinfo := TInfo rs_defs rs_uses (λ _, None) [] (λ _, None) (λ _, "sig").
Definition rs_p : gpkg := GPkg 1 "ex.org/p" "p" (Some a_mod) [] [rs_file1; rs_file2] (Some rs_tpkg) (Some rs_ti).
Definition rs_h : pheap := {[ 1 := rs_p ]}.
Definition rs_all : ptab := {[ "ex.org/p" := 1 ]}.
Definition RS_ : project := Project p_env rs_objs rs_fs rs_h rs_all rs_all [rs_p].

Lemma rs_typed f : f ∈ [rs_file1; rs_file2] → typed_file rs_fs rs_ti (imports_of rs_h rs_p) rs_objs f ∧ defs_at_idents rs_ti f.
Proof.
  intros Hf. split.
  - split.
    2:{ intros ptr o Hu Hk. apply tab_in in Hu. cbn in Hu. repeat (destruct Hu as [Hu|Hu]; [injection Hu as <- <-; split; [reflexivity|reflexivity|reflexivity|first [by split|by constructor; [left|]]|done]|]). done. }
    2:{ intros o path Ho. enum Ho; subst o; done. }
    split.
    + enum Hf; subst f; by eexists _, _, _, _, _.
    + intros decl m c Hd Hm Hc.
      assert (H : forallb (λ f, forallb (λ decl, forallb (λ m, forallb (λ c, match c with NFuncDecl _ _ _ _ _ _ _ | NFile _ _ _ _ _ => false | _ => true end)
        (node_children m)) (subnodes decl)) (file_decls f)) [rs_file1; rs_file2] = true) by reflexivity.
      rewrite forallb_forall in H. specialize (H _ (proj1 (elem_of_list_In _ _) Hf)).
      rewrite forallb_forall in H. specialize (H _ (proj1 (elem_of_list_In _ _) Hd)).
      rewrite forallb_forall in H. specialize (H _ (proj1 (elem_of_list_In _ _) Hm)).
      rewrite forallb_forall in H. specialize (H _ (proj1 (elem_of_list_In _ _) Hc)). by destruct c.
    + intros decl Hd. enum Hf; subst f; enum Hd; by subst.
    + enum Hf; subst f; vm_compute; repeat (apply NoDup_cons; split; [intros H; enum H|]); constructor.
    + intros par i o path Hi Hu Hk. exfalso. apply tab_in in Hu. cbn in Hu.
      repeat (destruct Hu as [Hu|Hu]; [injection Hu as E' <-; discriminate|]). done.
    + intros ptr o path [H|H] Hk; apply tab_in in H; cbn in H;
        repeat (destruct H as [H|H]; [injection H as _ <-; try discriminate; done|]); done.
    + intros i Hi. rewrite <- elem_of_node_idents in Hi. enum Hf; subst f; enum Hi; subst i; fits.
    + intros d p e r nm t b H. enum Hf; subst f; enum H; injection H as <- <- <- <- <- <- <-; fits.
    + intros ptr nm p l path imp Hin Himp. enum Hf; subst f; enum Hin.
  - split.
    + intros i d Hi Hd. rewrite <- elem_of_node_idents in Hi. enum Hf; subst f; enum Hi; subst i; vm_compute in Hd; try discriminate; injection Hd as <-; reflexivity.
    + enum Hf; subst f; vm_compute; repeat (apply NoDup_cons; split; [intros H; enum H|]); constructor.
Qed.
Lemma rs_indexable : indexable rs_objs rs_fs rs_h rs_all rs_all [rs_p].
Proof.
  split.
  - split; [|split].
    + intros k q H%x_in. enum H; injection H as <- <-; eexists _, _; by split_and!.
    + intros k q H%x_in. enum H; injection H as <- <-; eexists _, _; by split_and!.
    + intros k q p H%x_in Hh. enum H; injection H as <- <-; vm_compute in Hh; injection Hh as <-;
        eexists _, _; split; reflexivity || split; reflexivity.
  - split.
    + split; [|split].
      * intros k. cbn [map p_path rs_p]. split.
        -- intros ->%elem_of_list_singleton. by eexists.
        -- intros [q H%x_in]. enum H; injection H as <- <-; left.
      * apply NoDup_singleton.
      * cbn. repeat constructor.
    + intros p Hp. enum Hp; subst p; eexists; by split.
  - split.
    + intros p f Hp Hf. apply elem_of_list_singleton in Hp as ->. destruct (rs_typed f Hf) as [H1 H2].
      exists rs_ti. cbn [p_syntax rs_p] in Hf. enum Hf; subst f; eexists; repeat (split; [done|]); reflexivity.
    + intros i j p f q f' name Hi Hj Hf Hf'.
      assert (NoDup (map (λ e : gpkg * node, rs_name (file_package_pos e.2)) (files_in_order [rs_p]))) as Hnd.
      { vm_compute. repeat (apply NoDup_cons; split; [intros H; enum H|]). constructor. }
      eapply (NoDup_lookup _ i j (Some name) Hnd); rewrite list_lookup_fmap.
      * rewrite Hi. cbn. by f_equal.
      * rewrite Hj. cbn. by f_equal.
  - intros p f name i Hp Hf Hfn Hi. rewrite <- elem_of_node_idents in Hi.
    apply elem_of_list_singleton in Hp as ->. unfold file_of in Hfn. cbn [p_syntax rs_p] in Hf.
    enum Hf; subst f; vm_compute in Hfn; injection Hfn as <-; enum Hi; subst i; reflexivity.
Qed.
Definition rs_run : list message * Index.outcome :=
  Index.index p_digest p_env rs_fs rs_h (λ o, o_name o) x_mo (λ _ _, None) x_impl "" "/src" "v1.0.0" false x_meta
    (LoadOk rs_all rs_all) ["ex.org/p"] ["ex.org/p"] ["ex.org/p"].
Definition rs_msgs : list message := rs_run.1.
Lemma rs_success : rs_run = (rs_msgs, Returned None).
Proof. vm_compute. reflexivity. Qed.
Lemma rs_indexed : indexed_with p_digest RS_ rs_msgs.
Proof.
  eexists (λ o, o_name o), x_mo, "/src", "v1.0.0", x_impl, "", ["ex.org/p"], ["ex.org/p"], ["ex.org/p"], false, x_meta, (λ _ _, None).
  split; [apply rs_indexable|]. split; [apply x_mo_ok|].
  split; [unfold key_order; vm_compute; repeat constructor|]. split; [unfold key_order; vm_compute; repeat constructor|].
  split; [unfold key_order; vm_compute; repeat constructor|]. split; [|exact rs_success].
  intros g g' k' exts _. unfold x_impl. intros [= <- <- <-]. split; [apply same_tables_refl|apply fresh_ok].
Qed.

Lemma rs_wf : wf_pkg_pos rs_p.
Proof. apply wf_pkgb_ok. vm_compute. reflexivity. Qed.
Lemma rs_common : pkg_common_value_types rs_p.
Proof. apply common_valuesb_ok. vm_compute. reflexivity. Qed.

Ltac rs_use sel o := split; [left|right; left| |by left];
  exists rs_ti, (Some sel), o, rs_tpkg; split; [done|]; split; [rewrite elem_of_list_In; vm_compute; tauto|];
  split; [split; [done|split; [let Hu := fresh in intros ? ? Hu; vm_compute in Hu; by injection Hu as <-|
      try done; let Hu := fresh in intros ? ? Hu; vm_compute in Hu; by injection Hu as <-]]|];
  split; [let Hc := fresh in intros c Hc; by apply elem_of_nil in Hc|];
  do 6 (split; [done|]); let Hc := fresh in intros c Hc; by apply elem_of_nil in Hc.
Lemma rs_use_A : use_of RS_ rs_p (id_pos rs_A) rs_p rs_file2 (mk 14 "A" 302).
Proof. rs_use rs_selA rs_oA. Qed.
Lemma rs_use_M : use_of RS_ rs_p (id_pos rs_M) rs_p rs_file2 (mk 17 "M" 322).
Proof. rs_use rs_selM rs_oM. Qed.

Definition rs_dsc (F : string) : list descriptor := [Desc "func" Scip.Meta; Desc F Scip.Meta].
Lemma rs_method F nm q q' rs ld methods l fd fc names t i : NFuncDecl ld.1.1 ld.1.2 ld.2 None nm (NFuncType q' empty_fields empty_fields rs) q ∈ file_decls rs_file1 →
  id_name nm = F → rs = NFieldList l → (∃ r p, NField "" "" [] (NInterfaceType r p (NFieldList methods)) ∈ l) →
  NField fd fc names t ∈ methods → i ∈ names → result_method rs_file1 (rs_dsc F) i.
Proof.
  intros Hd <- -> (r & p & Hl) Hf Hi.
  eexists _, _, _, _, _, _, _, _, _, nm, _, _, _, _, _, [], methods, _, _, _, _.
  split; [reflexivity|]. split; [exact Hd|]. split; [constructor|]. split; [reflexivity|].
  split; [|split; [exact Hf|exact Hi]].
  eapply res_part; [done|exact Hl|]. eapply res_part; [done|left|]. constructor.
Qed.
Lemma rs_method_M : result_method rs_file1 (rs_dsc "G") rs_M.
Proof. eapply (rs_method "G" (mk 4 "G" 55) _ 56%Z rs_rG ("", 50%Z, 90%Z) [rs_mM]); [right; left|done|reflexivity|by eexists _, _; left|left|left]. Qed.
Lemma rs_method_N1 : result_method rs_file1 (rs_dsc "H") rs_N1.
Proof. eapply (rs_method "H" (mk 6 "H" 97) _ 98%Z rs_rH ("", 92%Z, 150%Z) [rs_mN1]); [right; right; left|done|reflexivity|by eexists _, _; left|left|left]. Qed.
Lemma rs_method_N2 : result_method rs_file1 (rs_dsc "H") rs_N2.
Proof. eapply (rs_method "H" (mk 6 "H" 97) _ 98%Z rs_rH ("", 92%Z, 150%Z) [rs_mN2]); [right; right; left|done|reflexivity|by eexists _, _; right; left|left|left]. Qed.

Lemma rs_nav F i t def : result_method rs_file1 (rs_dsc F) i → (0 < id_pos i)%Z → (Some (NField "" "" [i] t), NIdent i) ∈ file_nodes rs_file1 →
  ti_defs rs_ti (id_ptr i) = Some def → ti_uses rs_ti (id_ptr i) = None → id_name i ≠ "_" →
  let s := result_symbol "ex.org/p" a_mod (rs_dsc F) (id_name i) in
  describes RS_ rs_msgs rs_p rs_file1 s ∧ defines RS_ rs_msgs rs_p rs_file1 i s ∧
  ∀ p2 f2 i2, use_of RS_ rs_p (id_pos i) p2 f2 i2 → refers RS_ rs_msgs p2 f2 i2 s.
Proof.
  intros Hm Hp Hn Hd Hu Hb.
  destruct (C68_result_methods_navigate_partial p_digest RS_ rs_msgs rs_p rs_file1 rs_ti (rs_dsc F) i (Some (NField "" "" [i] t)) def) as (m & E & H); [..|injection E as <-; exact H].
  - apply rs_indexed.
  - left.
  - left.
  - done.
  - apply rs_wf.
  - exact Hm.
  - exact Hp.
  - exact Hn.
  - split; [done|]. split; [|done]. intros u pp E. rewrite Hu in E. done.
  - intros c Hc. by apply elem_of_nil in Hc.
  - exact Hd.
  - done.
Qed.
(** the method M of G's result, and its use in the other file *)
Definition rs_sM : string := "scip-go gomod ex.org v1.0.0 `ex.org/p`/func:G:M().".
Example C68_ex : describes RS_ rs_msgs rs_p rs_file1 rs_sM ∧ defines RS_ rs_msgs rs_p rs_file1 rs_M rs_sM ∧
  refers RS_ rs_msgs rs_p rs_file2 (mk 17 "M" 322) rs_sM.
Proof.
  assert (E : result_symbol "ex.org/p" a_mod (rs_dsc "G") (id_name rs_M) = rs_sM) by (vm_compute; reflexivity).
  destruct (rs_nav "G" rs_M (rs_ftype 76) rs_oM rs_method_M) as (H1 & H2 & H3); [done|rewrite elem_of_list_In; vm_compute; tauto|done|done|done|].
  rewrite E in H1, H2, H3. split; [exact H1|]. split; [exact H2|]. exact (H3 _ _ _ rs_use_M).
Qed.

(** C68 fails for the fields of a struct literal in a function's results: such a field is only a local symbol of its
    file, and a use in another file is no reference at all. *)
Theorem C68_struct_result_refuted : ∃ digest P msgs p f ti i def p2 f2 i2 a h d nm decls doc q e F q' tps ps l fd fc lit r fields body,
  indexed_with digest P msgs ∧ p ∈ pr_pkgs P ∧ f ∈ p_syntax p ∧ p_info p = Some ti ∧ wf_pkg_pos p ∧
  (** i is a field of the struct that F returns *)
  f = NFile a h d nm decls ∧ NFuncDecl doc q e None F (NFuncType q' tps ps (NFieldList l)) body ∈ decls ∧
  NField fd fc [] lit ∈ l ∧ literal lit r fields ∧ (∃ d' c' t', NField d' c' [i] t' ∈ fields) ∧
  ti_defs ti (id_ptr i) = Some def ∧ use_of P p (id_pos i) p2 f2 i2 ∧
  (∀ s, defines P msgs p f i s → s = "local 0") ∧ ∀ s, ¬ refers P msgs p2 f2 i2 s.
Proof.
  exists p_digest, RS_, rs_msgs, rs_p, rs_file1, rs_ti, rs_A, rs_oA, rs_p, rs_file2, (mk 14 "A" 302).
  eexists _, _, _, _, _, _, _, _, _, _, _, _, _, _, _, rs_lit, 51, rs_afields, _.
  split; [apply rs_indexed|]. split; [left|]. split; [left|]. split; [done|]. split; [apply rs_wf|].
  split; [reflexivity|]. split; [left|]. split; [left|]. split; [constructor|]. split; [by eexists _, _, _; left|].
  split; [done|]. split; [apply rs_use_A|].
  assert (Hk : ∀ k, files_in_order (pr_pkgs RS_) !! k = Some (rs_p, rs_file1) → k = 0).
  { intros k Hk. destruct k as [|[|k]]; [done|discriminate|by destruct k]. }
  split.
  - destruct (documents rs_msgs !! 0) as [d|] eqn:Ed; [|vm_compute in Ed; discriminate].
    eapply (rc_defines_only RS_ rs_msgs rs_p rs_file1 rs_A "local 0" 0 d Hk Ed).
    assert (H : match documents rs_msgs !! 0 with
      | Some d => forallb (λ o, implb (Nat.eqb (oc_roles o) 1 && bool_decide (oc_range o = ident_span (pr_fs RS_) rs_A)) (String.eqb (oc_symbol o) "local 0")) (d_occs d)
      | None => false end = true) by (vm_compute; reflexivity). rewrite Ed in H. exact H.
  - apply (mb_no_range RS_ rs_msgs rs_p rs_file2 (mk 14 "A" 302) 1); [left| |vm_compute; reflexivity].
    intros k Hk'. destruct k as [|[|k]]; [discriminate|done|by destruct k].
Qed.
Print Assumptions C68_struct_result_refuted.

(** Methods of the same name of two interface literals in one function's results share their symbol. *)
Theorem C68_two_results_refuted : ∃ digest P msgs p f ti ds i i2 def def2,
  indexed_with digest P msgs ∧ p ∈ pr_pkgs P ∧ f ∈ p_syntax p ∧ p_info p = Some ti ∧ wf_pkg_pos p ∧
  result_method f ds i ∧ result_method f ds i2 ∧ ti_defs ti (id_ptr i) = Some def ∧ ti_defs ti (id_ptr i2) = Some def2 ∧
  o_pos def ≠ o_pos def2 ∧ ∃ s, defines P msgs p f i s ∧ defines P msgs p f i2 s.
Proof.
  exists p_digest, RS_, rs_msgs, rs_p, rs_file1, rs_ti, (rs_dsc "H"), rs_N1, rs_N2, rs_oN1, rs_oN2.
  split; [apply rs_indexed|]. split; [left|]. split; [left|]. split; [done|]. split; [apply rs_wf|].
  split; [apply rs_method_N1|]. split; [apply rs_method_N2|]. split; [done|]. split; [done|]. split; [done|].
  exists (result_symbol "ex.org/p" a_mod (rs_dsc "H") "N"). split.
  - destruct (rs_nav "H" rs_N1 (rs_ftype 116) rs_oN1 rs_method_N1) as (_ & H2 & _); [done|rewrite elem_of_list_In; vm_compute; tauto|done|done|done|]. exact H2.
  - destruct (rs_nav "H" rs_N2 (rs_ftype 133) rs_oN2 rs_method_N2) as (_ & H2 & _); [done|rewrite elem_of_list_In; vm_compute; tauto|done|done|done|]. exact H2.
Qed.
Print Assumptions C68_two_results_refuted.
