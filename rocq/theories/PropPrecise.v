(** C67: find-references is precise: in the index, the symbol of a package-level declaration is attached to
    that declaration and to its uses, and to nothing else. *)
From Coq Require Import Ascii String.
From stdpp Require Import prelude strings gmap sorting.
From Verif Require Import GoStr Scip GoTypes Packages Symbols Document Lookup Pass1 Pass2 Paths
  Loader Index Ast SpecSymbol SpecDecl SpecLookup SpecOcc SpecIndex SpecPrecise
  P_Symbols P_Pass1 P_Link P_Lookup P_Pass2 P_Occ P_Scope P_Index P_Precise PropDecl PropOcc PropIndex PropCross ExDecl ExOcc ExIndex ExCross PropNav.
Open Scope string_scope.
Open Scope list_scope.

(** module paths and versions of the loaded packages do not start with a space *)
Definition clean_modules (P : project) : Prop := ∀ k q p m,
  pr_all P !! k = Some q → pr_heap P !! q = Some p → p_module p = Some m → clean_module m.
(** identifier i declares or defines object d *)
Definition defined_by (ti : tinfo) (i : Ast.ident) (d : obj) : Prop :=
  (no_switch ti i ∧ ti_defs ti (id_ptr i) = Some d) ∨ (d ∈ ti_case_objs ti ∧ o_pos d = id_pos i).
(** object o of package p1, used after the nodes l1 of a file of p2, is declared neither at package level
    nor earlier in the file *)
Definition not_declared_before (P : project) (p1 p2 : gpkg) (ti : tinfo) (l1 : list (option node * node)) (o : obj) : Prop :=
  (∀ i k, pkg_declares p1 i k → (is_value_key k = true → common_before p1 i) → (0 < id_pos i)%Z → o_pos o ≠ id_pos i) ∧
  (p1 = p2 → ∀ par i d, (par, NIdent i) ∈ l1 → visible P ti par i → defined_by ti i d → o_pos o ≠ o_pos d).

(** references, classified *)
Lemma reference_cases g fs pkg ti tbl imports lookup before e r :
  r ∈ node_occs g fs pkg ti tbl imports lookup before e → oc_roles r = role_read_access →
  (∃ imp, g_pkgsyms g !! p_path imp = Some (oc_symbol r)) ∨
  (∃ path, g_pkgsyms g !! path = Some (oc_symbol r)) ∨
  is_local (oc_symbol r) ∨
  (∃ i o info, e.2 = NIdent i ∧ ti_uses ti (id_ptr i) = Some o ∧ oc_range r = ident_span fs i ∧
     names_package ti i = None ∧
     index_of (o_pos o) (before ++ option_list (local_def g pkg ti tbl e)) = None ∧
     lookup o = Found info ∧ oc_symbol r = i_symbol info).
Proof.
  intros Hr Hro. destruct e as [par n]. destruct n; try by apply elem_of_nil in Hr.
  - cbn [node_occs] in Hr. destruct (hidden g ti par) eqn:Hh; [by apply elem_of_nil in Hr|].
    destruct (names_package ti i) as [[u path]|] eqn:Hn.
    { destruct (g_pkgsyms g !! path) eqn:E; [|by apply elem_of_nil in Hr].
      apply elem_of_list_singleton in Hr as ->. right. left. by exists path. }
    destruct (String.eqb (id_name i) "_"); [by apply elem_of_nil in Hr|].
    destruct (switch_object ti i) as [u|]; [by apply elem_of_list_singleton in Hr as ->|].
    apply elem_of_app in Hr as [Hr|Hr].
    { unfold def_occs in Hr. destruct (ti_defs ti (id_ptr i)) as [d|]; [|by apply elem_of_nil in Hr].
      destruct (registered g pkg tbl (o_pos d)); by apply elem_of_list_singleton in Hr as ->. }
    unfold use_occs in Hr. destruct (ti_uses ti (id_ptr i)) as [o|] eqn:Hu; [|by apply elem_of_nil in Hr].
    unfold local_symbol in Hr. destruct (index_of _ _) as [k|] eqn:Hk; cbn [fmap option_fmap option_map] in Hr.
    { apply elem_of_list_singleton in Hr as ->. right. right. left. cbn. apply local_name_local. }
    destruct (lookup o) as [info| |] eqn:Hl; [|by apply elem_of_nil in Hr..].
    apply elem_of_list_singleton in Hr as ->. right. right. right. exists i, o, info. done.
  - left. cbn in Hr. unfold import_refs in Hr. destruct (ti_pkgname_of ti ptr) as [po|]; [|by apply elem_of_nil in Hr].
    destruct (o_kind po); try by apply elem_of_nil in Hr.
    destruct (imports imported_path) as [imp|]; [|by apply elem_of_nil in Hr].
    destruct (g_pkgsyms g !! p_path imp) as [sym|] eqn:E; [|by apply elem_of_nil in Hr]. exists imp. rewrite E. f_equal.
    apply elem_of_app in Hr as [Hr|Hr]; [|by apply elem_of_list_singleton in Hr as ->].
    destruct name as [j|]; [|by apply elem_of_nil in Hr].
    destruct (_ || _)%bool; [by apply elem_of_nil in Hr|by apply elem_of_list_singleton in Hr as ->].
Qed.

Lemma key_descriptors_length path k : ∃ d ds, key_descriptors path k = Desc path Namespace :: d :: ds.
Proof. destruct k; eexists _, _; reflexivity. Qed.
Lemma key_symbol_global path m k : is_global (key_symbol path m k).
Proof. apply format_global. Qed.
Lemma package_not_key m path m1 path1 k : clean_module m → clean_module m1 → package_symbol m path ≠ key_symbol path1 m1 k.
Proof.
  intros H1 H2 E. unfold package_symbol, key_symbol in E. apply format_symbol_inj in E; [|by apply clean_module_symbol..].
  unfold normal_symbol in E. cbn in E. injection E as _ _ _ E. by destruct k.
Qed.

(** what an object is described as, when its description is that of a package-level entity *)
Lemma describe_key env tp o path k : describe env tp o = key_descriptors path k → tp_path tp = path ∧ o_name o = key_name k.
Proof.
  unfold describe. destruct (o_kind o) as [recv| | | | | | |]; repeat case_match; destruct k; cbn; intros E; try discriminate E; by injection E.
Qed.

Section Run.
  Context (digest : string → string) (env : tenv) (objs : nat → option obj) (fs : fset) (h : pheap) (all proj : ptab) (ps : list gpkg).
  Context (Hix : indexable objs fs h all proj ps).
  Context (Hcl : ∀ k q p m, all !! k = Some q → h !! q = Some p → p_module p = Some m → clean_module m).
  Context (Hgr : ∀ p, p ∈ ps → pkg_grammatical p).

  Lemma project_clean p m : p ∈ ps → p_module p = Some m → clean_module m.
  Proof.
    intros Hp Hm. destruct (ix_order _ _ _ _ _ _ Hix) as [_ Hin]. destruct (Hin _ Hp) as (q & Hq & Hh).
    destruct (ix_loaded _ _ _ _ _ _ Hix) as (_ & _ & H). destruct (H _ _ _ Hq Hh) as (q' & p' & H1 & H2 & H3).
    eapply Hcl; [exact H1|exact H2|congruence].
  Qed.

  Lemma entry_key g0 g id p tbl pos info p1 m1 k : tables_ok digest env fs h all ps g0 → same_tables g0 g →
    p1 ∈ ps → p_module p1 = Some m1 →
    g_symbols g !! id = Some (p, tbl) → tbl !! pos = Some info → i_symbol info = key_symbol (p_path p1) m1 k →
    p = p1 ∧ introduced_at p1 k pos.
  Proof.
    intros Htab Hst Hp1 Hm1 Hg Hl Hs.
    destruct (decide (id ∈ map p_path ps)) as [Hin|Hout].
    2: { exfalso. destruct Hst as [_ Hst]. specialize (Hst id). rewrite Hg in Hst.
      destruct (g_symbols g0 !! id) as [[p0 t0]|] eqn:E0; [|done]. destruct Hst as [<- Hst].
      rewrite (tk_deps _ _ _ _ _ _ _ Htab id p0 t0 Hout E0) in Hst. specialize (Hst pos).
      rewrite lookup_empty in Hst. by rewrite Hl in Hst. }
    apply elem_of_list_fmap in Hin as (p' & -> & Hp').
    destruct (tk_proj _ _ _ _ _ _ _ Htab p' Hp') as (tbl0 & Hg0 & Ht).
    destruct (same_tables_lookup _ _ _ _ _ Hst Hg0) as (tbl' & Hg' & Hsame).
    assert (p = p' ∧ tbl' = tbl) as [-> ->] by (rewrite Hg in Hg'; by injection Hg').
    destruct (pass1_entry digest env fs h all ps g0 g p' tbl pos info Htab Hst Hp' Hg Hl) as (m & first & rest & Hm & Hsy & Hcase).
    pose proof (project_clean _ _ Hp' Hm) as Hc. pose proof (project_clean _ _ Hp1 Hm1) as Hc1.
    destruct Hcase as [(ds & _ & Es)|(_ & Es & _)].
    2: { exfalso. rewrite Hs in Es. by apply (package_not_key m (p_path p') m1 (p_path p1) k). }
    assert (p' = p1) as ->.
    { eapply same_path; [exact Hix|done|done|]. rewrite Hs in Es. unfold key_symbol in Es.
      apply format_symbol_inj in Es; [|by apply clean_module_symbol..].
      unfold normal_symbol in Es. cbn in Es. injection Es as _ _ E _. done. }
    assert (m = m1) as -> by congruence.
    split; [done|]. unfold pass1_table in Ht. rewrite Hsy in Ht. destruct (p_info p1) as [ti|]; [|done].
    destruct Ht as (tbl1 & m' & Hv & Hm' & ->). assert (m' = m1) as -> by congruence.
    specialize (Hsame pos). rewrite Hl in Hsame. 
    destruct (pset tbl1 _ _ !! pos) as [i0|] eqn:E0; [|done]. destruct Hsame as (Hsym & _).
    unfold pset in E0.
    assert (Hcases : tbl1 !! pos = Some i0 ∨ i_symbol i0 = package_symbol m1 (p_path p1)).
    { destruct (tbl1 !! id_pos (file_ident first)) as [y|]; [destruct (String.eqb _ _)|]; [by left| |];
      rewrite lookup_insert_Some in E0; (destruct E0 as [[_ <-]|[_ E0]]; [by right|by left]). }
    destruct Hcases as [Ht1|Hpk].
    - eapply (table_key digest ti fs env p1 m1 tbl1 pos i0 k (Hgr _ Hp1) Hm1 Hc1 Hv Ht1). congruence.
    - exfalso. apply (package_not_key m1 (p_path p1) m1 (p_path p1) k Hc1 Hc1). congruence.
  Qed.

  (** an object without registered position, composed to the symbol of a package-level entity *)
  Lemma composed_key g0 g root version o tp p t p1 m1 k : tables_ok digest env fs h all ps g0 → same_tables g0 g →
    p1 ∈ ps → p_module p1 = Some m1 → go_object objs o → o_pkg o = Some tp →
    g_symbols g !! tp_path tp = Some (p, t) → composed env root version p o = key_symbol (p_path p1) m1 k →
    tp_path tp = p_path p1 ∧ o_name (origin o) = key_name k.
  Proof.
    intros Htab Hst Hp1 Hm1 Hgo Hpk Hg Hs.
    assert (Hmod : ∃ m, p_module p = Some m ∧ clean_module m).
    { apply same_tables_sym in Hst. destruct (same_tables_lookup _ _ _ _ _ Hst Hg) as (t0 & Hg0 & _).
      destruct (decide (tp_path tp ∈ map p_path ps)) as [Hin|Hout].
      - apply elem_of_list_fmap in Hin as (p' & E & Hp'). destruct (tk_proj _ _ _ _ _ _ _ Htab p' Hp') as (t1 & Hg1 & _).
        rewrite E, Hg1 in Hg0. injection Hg0 as -> _.
        destruct (ix_order _ _ _ _ _ _ Hix) as [_ Hin']. destruct (Hin' _ Hp') as (q & Hq & Hh).
        destruct (ix_loaded _ _ _ _ _ _ Hix) as (_ & Hkp & _). destruct (Hkp _ _ Hq) as (p'' & m & Hh' & _ & Hm).
        assert (p'' = p) as -> by congruence. exists m. split; [done|]. by eapply project_clean.
      - destruct (all !! tp_path tp) as [q|] eqn:Eq.
        + destruct (ix_loaded _ _ _ _ _ _ Hix) as (Hka & _). destruct (Hka _ _ Eq) as (p'' & m & Hh & _ & Hm).
          rewrite (tk_all _ _ _ _ _ _ _ Htab _ _ _ Eq Hh Hout) in Hg0. injection Hg0 as -> _. exists m. split; [done|]. by eapply Hcl.
        + by rewrite (tk_none _ _ _ _ _ _ _ Htab _ Eq Hout) in Hg0. }
    destruct Hmod as (m & Hm & Hc). pose proof (project_clean _ _ Hp1 Hm1) as Hc1.
    unfold composed, compose in Hs. rewrite Hpk in Hs. cbn [c_memo new_composer assoc_nat] in Hs.
    pose proof (go_origin _ _ Hgo) as Hor. rewrite Hpk in Hor. cbn in Hor.
    destruct (o_pkg (origin o)) as [tp'|]; [|done]. cbn in Hor. injection Hor as Hor.
    destruct (describe env tp' (origin o)) as [|d ds] eqn:Ed.
    { cbn in Hs. exfalso. symmetry in Hs. by apply format_symbol_nonempty in Hs. }
    cbn [fst] in Hs. unfold pack in Hs. rewrite Hm in Hs. unfold key_symbol in Hs.
    apply format_symbol_inj in Hs; [|by apply clean_module_symbol..].
    assert (E : d :: ds = key_descriptors (p_path p1) k) by exact (f_equal s_descriptors Hs).
    rewrite <-Ed in E. apply describe_key in E as [E1 E2]. split; [congruence|done].
  Qed.
End Run.

(** C67: a reference with the symbol of the package-level entity k of project package p1 covers exactly an
    identifier that uses an object declared by a declaration of k in p1.  The only exception is an object of
    the same name that is declared neither at package level nor before its use (a type parameter). *)
Theorem C67_references_precise : ∀ P msgs p1 m1 k p2 f2 d r,
  indexed P msgs → clean_modules P → (∀ p, p ∈ pr_pkgs P → pkg_grammatical p) →
  p1 ∈ pr_pkgs P → p_module p1 = Some m1 → wf_pkg_pos p1 →
  p2 ∈ pr_pkgs P → f2 ∈ p_syntax p2 →
  document_of (pr_pkgs P) (documents msgs) p2 f2 d → r ∈ d_occs d → oc_roles r = role_read_access →
  oc_symbol r = key_symbol (p_path p1) m1 k →
  ∃ ti l1 par i l2 o, p_info p2 = Some ti ∧ file_nodes f2 = l1 ++ (par, NIdent i) :: l2 ∧
    ti_uses ti (id_ptr i) = Some o ∧ oc_range r = ident_span (pr_fs P) i ∧
    (introduced_at p1 k (o_pos o) ∨
     (tp_path <$> o_pkg o = Some (p_path p1) ∧ o_name (origin o) = key_name k ∧ not_declared_before P p1 p2 ti l1 o)).
Proof.
  intros P msgs p1 m1 k p2 f2 d r
    (digest & objstr & mo & root & version & impl & ie & po & ao & po2 & skip & meta & w & Hix & Hmo & H1 & H2 & H3 & Hic & Hrun)
    Hcl Hgr Hp1 Hm1 Hwf Hp2 Hf2 Hdoc Hr Hro Hs.
  destruct P as [env objs fs h all proj ps]. cbn in *.
  destruct (success digest env objs fs h objstr mo root version all proj ps impl ie po ao po2 skip meta w Hix Hmo H1 H2 H3 Hic msgs Hrun) as (ds & exts & g0 & g & kk & -> & Htab & _ & Hst & Hds).
  rewrite documents_msgs in Hdoc. destruct Hdoc as (n & Hi & Hdn).
  pose proof (Forall2_lookup_lr _ _ _ _ _ _ Hds Hi Hdn) as Hd. cbn in Hd.
  destruct Hd as (ti & tbl & st & sym & name & torder & lorder & Hti & Hname & Hg' & Hsym & Hv & Hto & Hlo & ->).
  destruct (tpj_info _ _ _ _ (ix_typed _ _ _ _ _ _ Hix) p2 f2 Hp2 Hf2) as (ti' & name' & Hti' & Htf & Hdi & _).
  assert (ti' = ti) as -> by congruence.
  pose proof (lk_answers env _ root version g _ _ _ _ Htf) as Ha.
  destruct (visited_occs _ _ _ _ _ _ _ _ _ _ _ _ _ Htf Ha st Hv) as (_ & Ho & _).
  cbn [to_document d_occs] in Hr. rewrite Ho in Hr. apply elem_of_cons in Hr as [->|Hr]; [done|].
  apply nsoccs_elem in Hr as (l1 & e & l2 & Hsplit & Hr).
  assert (Hpkg : ∀ path, g_pkgsyms g !! path ≠ Some (oc_symbol r)).
  { intros path E. rewrite <-(proj1 Hst) in E. destruct (all !! path) as [q|] eqn:Eq.
    - destruct (ix_loaded _ _ _ _ _ _ Hix) as (Hka & _). destruct (Hka _ _ Eq) as (p' & m & Hh & _ & Hm).
      rewrite (tk_syms _ _ _ _ _ _ _ Htab _ _ _ _ Eq Hh Hm), Hs in E. apply (inj Some) in E.
      apply (package_not_key m path m1 (p_path p1) k) in E; [done|by eapply Hcl|].
      exact (project_clean objs fs h all proj ps Hix Hcl _ _ Hp1 Hm1).
    - by rewrite (tk_nosym _ _ _ _ _ _ _ Htab path Eq) in E. }
  destruct (reference_cases _ _ _ _ _ _ _ _ _ _ Hr Hro) as [(imp & E)|[(path & E)|[Hl|(i & o & info & Ei & Hu & Hrange & Hnp & Hidx & Hlk & Hsi)]]].
  - by destruct (Hpkg _ E).
  - by destruct (Hpkg _ E).
  - exfalso. rewrite Hs in Hl. exact (global_not_local _ (key_symbol_global _ _ _) Hl).
  - destruct e as [par nd]. cbn in Ei. subst nd.
    exists ti, l1, par, i, l2, o. split; [done|]. split; [done|]. split; [done|]. split; [done|].
    assert (Hnk : ∀ pp, o_kind o ≠ OPkgName pp).
    { intros pp Ek. unfold names_package in Hnp. rewrite Hu, Ek in Hnp. done. }
    pose proof (tf_uses _ _ _ _ _ Htf _ _ Hu Hnk) as Hgo.
    assert (Hres : resolves env root version g o (Found info)).
    { specialize (Ha _ _ Hu Hnk). by rewrite Hlk in Ha. }
    rewrite Hsi in Hs. inversion Hres as [| | |tp i0 K1 K2 K3 K4 (pp & tt & K5 & K6)|tp i0 K1 K2 K3 K4 _ (pp & tt & K5 & K6)|tp i0 K1 K2 K3 K4 _ _ (pp & tt & K5 & K6)|tp pp tt K1 K2 K3 K4 K5 K6 K7 K8 K9 K10|]; subst.
    + left. by eapply (entry_key digest env objs fs h all proj ps Hix Hcl Hgr).
    + left. by eapply (entry_key digest env objs fs h all proj ps Hix Hcl Hgr).
    + left. by eapply (entry_key digest env objs fs h all proj ps Hix Hcl Hgr).
    + right. cbn in Hs. destruct (composed_key digest env objs fs h all proj ps Hix Hcl g0 g root version o tp pp tt p1 m1 k Htab Hst Hp1 Hm1 Hgo K3 K8 Hs) as [E1 E2].
      split; [rewrite K3; cbn; by rewrite E1|]. split; [done|]. split.
      * intros i' k' (par' & f1 & Hf1 & Hd1) Hcv Hpos Eq.
        destruct (final_entry digest env objs fs h all proj ps Hix g0 g p1 f1 i' k' par' Htab Hst Hp1 Hf1 Hd1 Hwf Hcv Hpos) as (m' & tbl1 & info' & _ & Hg1 & Hl1 & _).
        apply (K5 info'). exists p1, tbl1. rewrite E1, Eq. done.
      * intros <- par' i' d' Hin Hvis Hdb Eq.
        assert (Hlocal : ∀ x, local_def g p1 ti tbl (par', NIdent i') ≠ Some (o_pos o, x)).
        { intros x Hx. assert (index_of (o_pos o) (omap (local_def g p1 ti tbl) l1 ++ option_list (local_def g p1 ti tbl (par, NIdent i))) ≠ None) as Hn; [|by apply Hn].
          intros Hn. apply index_of_none in Hn. apply Hn. rewrite List.map_app, elem_of_app. left.
          apply elem_of_list_fmap. exists (o_pos o, x). split; [done|]. apply elem_of_list_omap. eexists. split; [exact Hin|done]. }
        pose proof (visible_plain (Project env objs fs h all proj ps) digest g0 g ti par' i' (ix_loaded _ _ _ _ _ _ Hix) Htab Hst Hvis) as Hpl.
        destruct Hdb as [[Hns Hdef]|[Hc Hcp]].
        -- apply no_switch_none in Hns. specialize (Hlocal d'). unfold local_def in Hlocal. rewrite Hpl, Hns, Hdef in Hlocal.
           unfold registered in Hlocal. rewrite Hg' in Hlocal. rewrite Eq in *.
           destruct (tbl !! o_pos d') as [info'|] eqn:Et; [|done].
           apply (K5 info'). exists p1, tbl. rewrite E1. done.
        -- destruct (switch_object ti i') as [c|] eqn:Esw.
           ++ apply (Hlocal c). unfold local_def. rewrite Hpl, Esw. f_equal. f_equal. unfold switch_object in Esw.
              apply find_some in Esw as [_ Ez]. apply Z.eqb_eq in Ez. congruence.
           ++ unfold switch_object in Esw. apply elem_of_list_In in Hc. pose proof (find_none _ _ Esw _ Hc) as Hz.
              cbv beta in Hz. apply Z.eqb_neq in Hz. congruence.
Qed.
Print Assumptions C67_references_precise.

(** C67: a definition with the symbol of the package-level entity k of project package p1 is in a file of p1 and
    covers exactly an identifier at the position of a declaration of k. *)
Theorem C67_definitions_precise : ∀ P msgs p1 m1 k p2 f2 d r,
  indexed P msgs → clean_modules P → (∀ p, p ∈ pr_pkgs P → pkg_grammatical p) →
  p1 ∈ pr_pkgs P → p_module p1 = Some m1 → p2 ∈ pr_pkgs P → f2 ∈ p_syntax p2 →
  document_of (pr_pkgs P) (documents msgs) p2 f2 d → r ∈ d_occs d → is_def r →
  oc_symbol r = key_symbol (p_path p1) m1 k →
  p2 = p1 ∧ ∃ i, NIdent i ∈ subnodes f2 ∧ oc_range r = ident_span (pr_fs P) i ∧ introduced_at p1 k (id_pos i).
Proof.
  intros P msgs p1 m1 k p2 f2 d r
    (digest & objstr & mo & root & version & impl & ie & po & ao & po2 & skip & meta & w & Hix & Hmo & H1 & H2 & H3 & Hic & Hrun)
    Hcl Hgr Hp1 Hm1 Hp2 Hf2 Hdoc Hr Hro Hs.
  destruct P as [env objs fs h all proj ps]. cbn in *.
  destruct (success digest env objs fs h objstr mo root version all proj ps impl ie po ao po2 skip meta w Hix Hmo H1 H2 H3 Hic msgs Hrun) as (ds & exts & g0 & g & kk & -> & Htab & _ & Hst & Hds).
  rewrite documents_msgs in Hdoc. destruct Hdoc as (n & Hi & Hdn).
  pose proof (Forall2_lookup_lr _ _ _ _ _ _ Hds Hi Hdn) as Hd. cbn in Hd.
  destruct Hd as (ti & tbl & st & sym & name & torder & lorder & Hti & Hname & Hg' & Hsym & Hv & Hto & Hlo & ->).
  destruct (tpj_info _ _ _ _ (ix_typed _ _ _ _ _ _ Hix) p2 f2 Hp2 Hf2) as (ti' & name' & Hti' & Htf & Hdi & _).
  assert (ti' = ti) as -> by congruence.
  pose proof (lk_answers env _ root version g _ _ _ _ Htf) as Ha.
  destruct (visited_occs _ _ _ _ _ _ _ _ _ _ _ _ _ Htf Ha st Hv) as (_ & Ho & _).
  pose proof (project_clean objs fs h all proj ps Hix Hcl _ _ Hp1 Hm1) as Hc1.
  cbn [to_document d_occs] in Hr. rewrite Ho in Hr. apply elem_of_cons in Hr as [->|Hr].
  { exfalso. cbn in Hs. subst sym. rewrite <-(proj1 Hst) in Hsym.
    destruct (ix_order _ _ _ _ _ _ Hix) as [Hl0 Hin]. destruct (Hin _ Hp2) as (q & Hq & Hh).
    destruct (ix_loaded _ _ _ _ _ _ Hix) as (Hka & Hkp & Hsame). destruct (Hkp _ _ Hq) as (p' & m & Hh' & _ & Hm).
    assert (p' = p2) as -> by congruence.
    destruct (Hsame _ _ _ Hq Hh) as (q2 & p2' & A1 & A2 & A3).
    rewrite (tk_syms _ _ _ _ _ _ _ Htab _ _ _ m A1 A2) in Hsym by congruence. apply (inj Some) in Hsym as E.
    eapply package_not_key; [|exact Hc1|exact E]. exact (project_clean objs fs h all proj ps Hix Hcl _ _ Hp2 Hm). }
  apply nsoccs_explained in Hr as (l1 & e & l2 & Hsplit & He).
  assert (He' : e.2 ∈ subnodes f2).
  { eapply file_nodes_sub; [exact Htf|]. rewrite Hsplit. apply elem_of_app. right. left. }
  destruct He as [ptr nm p lit o Hn Hi'|i u pth sy Hn _ _|i p u encl Hn Hld _|i def info Hn _ Hdef Hreg|i u q Hn _ _ _|i u info Hn _ _ _]; try done.
  - exfalso. unfold import_refs in Hi'. destruct (ti_pkgname_of ti ptr) as [po'|]; [|by apply elem_of_nil in Hi'].
    destruct (o_kind po'); try by apply elem_of_nil in Hi'.
    destruct (imports_of h p2 imported_path); [|by apply elem_of_nil in Hi'].
    destruct (g_pkgsyms g !! _); [|by apply elem_of_nil in Hi'].
    apply elem_of_app in Hi' as [Hi'|Hi']; [|by apply elem_of_list_singleton in Hi' as ->].
    destruct nm as [j|]; [|by apply elem_of_nil in Hi'].
    destruct (_ || _)%bool; [by apply elem_of_nil in Hi'|by apply elem_of_list_singleton in Hi' as ->].
  - cbn in Hs. rewrite Hn in He'.
    assert (Hat : o_pos def = id_pos i) by (by eapply (proj1 Hdi)).
    assert (Ht : tbl !! o_pos def = Some info).
    { unfold registered in Hreg. rewrite Hg' in Hreg. by destruct (tbl !! o_pos def). }
    destruct (entry_key digest env objs fs h all proj ps Hix Hcl Hgr g0 g _ _ _ _ _ p1 m1 k Htab Hst Hp1 Hm1 Hg' Ht Hs) as [-> Hint].
    split; [done|]. exists i. split; [done|]. split; [done|]. by rewrite <-Hat.
Qed.
Print Assumptions C67_definitions_precise.

(** C67: a description with the symbol of the package-level entity k of project package p1 is in the document of
    a file of p1 that has a declaration of k at one of its positions. *)
Theorem C67_descriptions_precise : ∀ P msgs p1 m1 k p2 f2 d info,
  indexed P msgs → clean_modules P → (∀ p, p ∈ pr_pkgs P → pkg_grammatical p) →
  p1 ∈ pr_pkgs P → p_module p1 = Some m1 → p2 ∈ pr_pkgs P → f2 ∈ p_syntax p2 →
  document_of (pr_pkgs P) (documents msgs) p2 f2 d → info ∈ d_symbols d →
  i_symbol info = key_symbol (p_path p1) m1 k →
  p2 = p1 ∧ ∃ pos name, introduced_at p1 k pos ∧ file_of (pr_fs P) f2 name ∧ fs_file (pr_fs P) pos = Some name.
Proof.
  intros P msgs p1 m1 k p2 f2 d info
    (digest & objstr & mo & root & version & impl & ie & po & ao & po2 & skip & meta & w & Hix & Hmo & H1 & H2 & H3 & Hic & Hrun)
    Hcl Hgr Hp1 Hm1 Hp2 Hf2 Hdoc Hr Hs.
  destruct P as [env objs fs h all proj ps]. cbn in *.
  destruct (success digest env objs fs h objstr mo root version all proj ps impl ie po ao po2 skip meta w Hix Hmo H1 H2 H3 Hic msgs Hrun) as (ds & exts & g0 & g & kk & -> & Htab & _ & Hst & Hds).
  rewrite documents_msgs in Hdoc. destruct Hdoc as (n & Hi & Hdn).
  pose proof (Forall2_lookup_lr _ _ _ _ _ _ Hds Hi Hdn) as Hd. cbn in Hd.
  destruct Hd as (ti & tbl & st & sym & name & torder & lorder & Hti & Hname & Hg' & Hsym & Hv & Hto & Hlo & ->).
  destruct (tpj_info _ _ _ _ (ix_typed _ _ _ _ _ _ Hix) p2 f2 Hp2 Hf2) as (ti' & name' & Hti' & Htf & Hdi & _).
  assert (ti' = ti) as -> by congruence.
  pose proof (lk_answers env _ root version g _ _ _ _ Htf) as Ha.
  destruct (visited_occs _ _ _ _ _ _ _ _ _ _ _ _ _ Htf Ha st Hv) as (_ & _ & Hinv).
  cbn [to_document d_symbols] in Hr. apply elem_of_app in Hr as [Hr|Hr].
  - apply elem_of_list_fmap in Hr as ([pos y] & -> & Hr). unfold symbols_for_file in Hr. apply elem_of_list_filter in Hr as [Hfile Hr].
    cbn in Hfile, Hs. rewrite Hto in Hr. apply elem_of_map_to_list in Hr.
    destruct (entry_key digest env objs fs h all proj ps Hix Hcl Hgr g0 g _ _ _ _ _ p1 m1 k Htab Hst Hp1 Hm1 Hg' Hr Hs) as [-> Hint].
    split; [done|]. by exists pos, name.
  - exfalso. apply elem_of_list_fmap in Hr as ([pz l] & -> & He). cbn in Hs.
    rewrite Hlo in He. apply elem_of_map_to_list in He.
    rewrite (iv_locals _ _ _ _ _ _ _ Hinv) in He. destruct (index_of pz _) as [j|]; [|done].
    destruct (_ !! j); [|done]. injection He as <-. cbn in Hs.
    refine (global_not_local _ (key_symbol_global (p_path p1) m1 k) _). rewrite <-Hs. apply local_name_local.
Qed.
Print Assumptions C67_descriptions_precise.
