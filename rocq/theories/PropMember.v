(** C63: navigation to the members of anonymous struct and interface types. *)
From Coq Require Import Ascii String.
From stdpp Require Import prelude strings gmap sorting.
From Verif Require Import GoStr Scip GoTypes Packages Symbols Document Lookup Pass1 Pass2 Paths
  Loader Index Ast SpecSymbol SpecDecl SpecLookup SpecOcc SpecIndex
  P_Symbols P_Pass1 P_Link P_Lookup P_Pass2 P_Occ P_Scope P_Index P_Doc PropSymbols PropDecl PropOcc PropIndex PropAnon PropCross ExDecl ExOcc ExIndex ExCross PropNav PropLocal ExLocal.
Open Scope string_scope.
Open Scope list_scope.

(** *** Specification *)
(** msgs is the index of a successful run in which anonymous types are named by digest *)
Definition indexed_with (digest : string → string) (P : project) (msgs : list message) : Prop :=
  ∃ objstr mo root version impl impl_error po ao po2 skip meta w,
    indexable (pr_objs P) (pr_fs P) (pr_heap P) (pr_all P) (pr_proj P) (pr_pkgs P) ∧ orders_ok mo ∧
    key_order (pr_proj P) po ∧ key_order (pr_all P) ao ∧ key_order (pr_proj P) po2 ∧
    impl_contract (pr_env P) (pr_objs P) root version (pr_heap P) (pr_all P) (pr_proj P) impl ∧
    Index.index digest (pr_env P) (pr_fs P) (pr_heap P) objstr mo w impl impl_error root version skip meta
      (LoadOk (pr_all P) (pr_proj P)) po ao po2 = (msgs, Returned None).
Lemma indexed_with_indexed digest P msgs : indexed_with digest P msgs → indexed P msgs.
Proof. intros (objstr & r). by exists digest, objstr. Qed.

(** the document of f describes the symbol s *)
Definition describes (P : project) (msgs : list message) (p : gpkg) (f : node) (s : string) : Prop :=
  ∃ d info, document_of (pr_pkgs P) (documents msgs) p f d ∧ info ∈ d_symbols d ∧ i_symbol info = s.

(** in file f, the identifier i is a member, declared by the field fld, of the type of a declaration, or of
    literals nested in it: ds names the declaration, lits are the nested literals, outermost first *)
Definition file_member (fs : fset) (f : node) (ds : list descriptor) (lits : list nat) (i : Ast.ident) (fld : node) : Prop :=
  ∃ p h d nm decls decl fields, f = NFile p h d nm decls ∧ decl ∈ decls ∧ owner fs decl ds fields ∧ nested fields lits i fld.

(** identifier i2 of file f2 of package p2 is a use of the object declared at position pos in package p *)
Record use_of (P : project) (p : gpkg) (pos : Z) (p2 : gpkg) (f2 : node) (i2 : Ast.ident) : Prop := UseOf {
  uo_pkg : p2 ∈ pr_pkgs P; uo_file : f2 ∈ p_syntax p2;
  uo_typed : ∃ ti par o tp, p_info p2 = Some ti ∧ (par, NIdent i2) ∈ file_nodes f2 ∧ visible P ti par i2 ∧
    no_switch ti i2 ∧ ti_uses ti (id_ptr i2) = Some o ∧ o_pos o = pos ∧ o_pkg o = Some tp ∧ tp_path tp = p_path p ∧
    o_kind o ≠ OLabel ∧ o_kind o ≠ ONil ∧ (∀ c, c ∈ ti_case_objs ti → o_pos c ≠ pos);
  (** nothing else is at that position in another package *)
  uo_other : p = p2 ∨ ∀ i', NIdent i' ∈ subnodes f2 → id_pos i' ≠ pos }.

(** *** Table entries and the index *)
(** the declaration pass registers the symbol s at the position of i *)
Definition registers (digest : string → string) (P : project) (p : gpkg) (i : Ast.ident) (s : string) : Prop :=
  ∀ ti tbl, p_info p = Some ti → visit_package_table digest ti (pr_fs P) (pr_env P) p = Ok tbl →
    ∃ info, tbl !! id_pos i = Some info ∧ i_symbol info = s.
Definition below_decl (f : node) (i : Ast.ident) : Prop :=
  ∃ a b c nm decls decl, f = NFile a b c nm decls ∧ decl ∈ decls ∧ id_pos i ∈ poss decl.
Lemma decl_not_clause p first rest f i : p_syntax p = first :: rest → f ∈ p_syntax p → wf_pkg_pos p →
  (∃ a b c d e, first = NFile a b c d e) → below_decl f i → (0 < id_pos i)%Z → id_pos i ≠ id_pos (file_ident first).
Proof.
  intros Hsy Hf [Hwf Hsep] (a & b & c & nm0 & decls0 & ->) Hd Hpos E. cbn in E.
  assert (Hnm : id_pos i ∈ poss (NFile a b c nm0 decls0)).
  { apply (poss_child _ (NIdent nm0)); [left|]. unfold poss. cbn. rewrite E. left. }
  destruct Hd as (p1 & hd1 & d1 & nm1 & decls1 & decl & -> & Hdecl & Hi).
  rewrite Hsy in Hf, Hsep. apply elem_of_cons in Hf as [Hf|Hf].
  - injection Hf as -> -> -> -> ->.
    specialize (Hwf (NFile a b c nm0 decls0)). rewrite Hsy in Hwf. specialize (Hwf (elem_of_list_here _ _)).
    specialize (Hwf _ (subnodes_self _)). cbn in Hwf. destruct Hwf as [Hwf _].
    apply (Hwf decl Hdecl (id_pos i) Hpos); [|done]. unfold poss. cbn. rewrite E. left.
  - cbn in Hsep. destruct Hsep as [Hsep _]. apply (Hsep _ Hf (id_pos i) Hpos Hnm).
    eapply poss_child; [|exact Hi]. by right.
Qed.

Section Reg.
Context (digest : string → string) (P : project) (msgs : list message) (Hx : indexed_with digest P msgs).
Context (p : gpkg) (f : node) (ti : tinfo) (i : Ast.ident) (s : string).
Context (Hp : p ∈ pr_pkgs P) (Hf : f ∈ p_syntax p) (Hti : p_info p = Some ti) (Hwf : wf_pkg_pos p)
  (Hb : below_decl f i) (Hpos : (0 < id_pos i)%Z) (Hreg : registers digest P p i s).

Lemma final_registered g0 g : indexable (pr_objs P) (pr_fs P) (pr_heap P) (pr_all P) (pr_proj P) (pr_pkgs P) →
  tables_ok digest (pr_env P) (pr_fs P) (pr_heap P) (pr_all P) (pr_pkgs P) g0 → same_tables g0 g →
  ∃ m tbl info, p_module p = Some m ∧ g_symbols g !! p_path p = Some (p, tbl) ∧ tbl !! id_pos i = Some info ∧ i_symbol info = s.
Proof.
  intros Hix Htab Hst. destruct (tk_proj _ _ _ _ _ _ _ Htab p Hp) as (tbl0 & Hg & Ht).
  unfold pass1_table in Ht. destruct (p_syntax p) as [|first rest] eqn:Hsy; [by apply elem_of_nil in Hf|].
  rewrite Hti in Ht. destruct Ht as (tbl1 & m & Hv & Hm & ->).
  destruct (Hreg _ _ Hti Hv) as (info & Hl & Hs).
  assert (Hne : id_pos i ≠ id_pos (file_ident first)).
  { eapply decl_not_clause; [exact Hsy|by rewrite Hsy|done| |done|done].
    destruct (tpj_info _ _ _ _ (ix_typed _ _ _ _ _ _ Hix) p first Hp) as (ti' & name' & _ & Htf & _); [rewrite Hsy; left|].
    destruct (wff_file _ _ _ _ (tf_wf _ _ _ _ _ Htf)) as (a & b & c & d & e' & ->). eauto 10. }
  destruct (same_tables_lookup _ _ _ _ _ Hst Hg) as (tbl & Hg' & Hsame).
  specialize (Hsame (id_pos i)). rewrite pset_other in Hsame by done. rewrite Hl in Hsame.
  destruct (tbl !! id_pos i) as [info'|] eqn:El; [|done]. destruct Hsame as (Hsym & _).
  exists m, tbl, info'. split; [done|]. split; [done|]. split; [done|]. congruence.
Qed.

Lemma registered_described : NIdent i ∈ subnodes f → describes P msgs p f s.
Proof.
  intros Hsub.
  destruct Hx as (objstr & mo & root & version & impl & ie & po & ao & po2 & skip & meta & w & Hix & Hmo & H1 & H2 & H3 & Hic & Hrun).
  destruct (success digest (pr_env P) (pr_objs P) (pr_fs P) (pr_heap P) objstr mo root version (pr_all P) (pr_proj P) (pr_pkgs P) impl ie po ao po2 skip meta w Hix Hmo H1 H2 H3 Hic msgs Hrun)
    as (ds & exts & g0 & g & kk & Em & Htab & _ & Hst & Hds).
  destruct (final_registered g0 g Hix Htab Hst) as (m & tbl & info & Hm & Hg & Hl & Hs).
  assert ((p, f) ∈ files_in_order (pr_pkgs P)) as [n Hi]%elem_of_list_lookup by by apply files_elem.
  destruct (Forall2_lookup_l _ _ _ _ _ Hds Hi) as (d & Hdn & Hdoc). cbn in Hdoc.
  destruct Hdoc as (ti' & tbl' & st & sym & name & torder & lorder & Hti' & Hname & Hg' & _ & Hv & Hto & Hlo & ->).
  assert (tbl' = tbl) as -> by congruence.
  eexists _, info. split; [exists n; cbn; rewrite Em, documents_msgs; done|]. split; [|done].
  cbn [to_document d_symbols]. apply elem_of_app. left. apply elem_of_list_fmap.
  exists (id_pos i, info). split; [done|]. unfold symbols_for_file. apply elem_of_list_filter. cbn. split.
  + eapply (ix_idents _ _ _ _ _ _ Hix); [exact Hp|exact Hf|exact Hname|done].
  + rewrite Hto. by apply elem_of_map_to_list.
Qed.

Lemma registered_defined par def : (par, NIdent i) ∈ file_nodes f → visible P ti par i → no_switch ti i →
  ti_defs ti (id_ptr i) = Some def → defines P msgs p f i s.
Proof.
  intros Hin V S Hdef.
  destruct Hx as (objstr & mo & root & version & impl & ie & po & ao & po2 & skip & meta & w & Hix & Hmo & H1 & H2 & H3 & Hic & Hrun).
  destruct (success digest (pr_env P) (pr_objs P) (pr_fs P) (pr_heap P) objstr mo root version (pr_all P) (pr_proj P) (pr_pkgs P) impl ie po ao po2 skip meta w Hix Hmo H1 H2 H3 Hic msgs Hrun)
    as (ds & exts & g0 & g & kk & Em & Htab & _ & Hst & Hds).
  destruct (final_registered g0 g Hix Htab Hst) as (m & tbl & info & Hm & Hg & Hl & Hs).
  assert ((p, f) ∈ files_in_order (pr_pkgs P)) as [n Hi]%elem_of_list_lookup by by apply files_elem.
  destruct (Forall2_lookup_l _ _ _ _ _ Hds Hi) as (d & Hdn & Hdoc). cbn in Hdoc.
  destruct Hdoc as (ti' & tbl' & st & sym & name & torder & lorder & Hti' & Hname & Hg' & _ & Hv & Hto & Hlo & ->).
  assert (tbl' = tbl) as -> by congruence. assert (ti' = ti) as -> by congruence.
  destruct (tpj_info _ _ _ _ (ix_typed _ _ _ _ _ _ Hix) p f Hp Hf) as (ti' & name' & Hti2 & Htf & Hdi & _).
  assert (ti' = ti) as -> by congruence.
  pose proof (lk_answers (pr_env P) _ root version g _ _ _ _ Htf) as Ha.
  destruct (visited_occs _ _ _ _ _ _ _ _ _ _ _ _ _ Htf Ha st Hv) as (_ & Ho & _).
  assert (NIdent i ∈ subnodes f) as Hsub by (change (NIdent i) with (snd (par, NIdent i)); by eapply file_nodes_sub).
  apply elem_of_list_split in Hin as (a1 & b1 & E1).
  eexists _, (Definition_ (i_symbol info) (ident_span (pr_fs P) i) (enclosing (pr_fs P) par i) (docs_deprecated (i_documentation info))).
  split; [exists n; cbn; rewrite Em, documents_msgs; done|].
  cbn [to_document d_occs]. rewrite Ho, E1. split; [|split; [done|split; [exact Hs|done]]].
  right. apply nsoccs_elem. eexists a1, _, b1. split; [done|].
  eapply (def_occ g (pr_fs P) p ti tbl (imports_of (pr_heap P) p) (lk (pr_env P) root version g)).
  + exact (visible_plain P digest g0 g ti par i (ix_loaded _ _ _ _ _ _ Hix) Htab Hst V).
  + by apply no_switch_none.
  + exact Hdef.
  + unfold registered. rewrite (proj1 Hdi _ _ Hsub Hdef), Hl. done.
Qed.

Lemma registered_referred p2 f2 i2 : p_path p ≠ "unsafe" → use_of P p (id_pos i) p2 f2 i2 → refers P msgs p2 f2 i2 s.
Proof.
  intros Hun [Hp2 Hf2 (ti2 & par2 & o & tp & Hti2 & Hn2 & V & S & Hu & Hop & Hpk & Htp & Hk1 & Hk2 & Hcase) Hother].
  destruct Hx as (objstr & mo & root & version & impl & ie & po & ao & po2 & skip & meta & w & Hix & Hmo & H1 & H2 & H3 & Hic & Hrun).
  destruct (success digest (pr_env P) (pr_objs P) (pr_fs P) (pr_heap P) objstr mo root version (pr_all P) (pr_proj P) (pr_pkgs P) impl ie po ao po2 skip meta w Hix Hmo H1 H2 H3 Hic msgs Hrun)
    as (ds & exts & g0 & g & kk & Em & Htab & _ & Hst & Hds).
  destruct (final_registered g0 g Hix Htab Hst) as (m & tbl1 & info & Hm & Hg1 & Hl & Hs).
  assert ((p2, f2) ∈ files_in_order (pr_pkgs P)) as [n Hi]%elem_of_list_lookup by by apply files_elem.
  destruct (Forall2_lookup_l _ _ _ _ _ Hds Hi) as (d & Hdn & Hdoc). cbn in Hdoc.
  destruct Hdoc as (ti' & tbl & st & sym & name & torder & lorder & Hti' & Hname & Hg' & _ & Hv & Hto & Hlo & ->).
  assert (ti' = ti2) as -> by congruence.
  destruct (tpj_info _ _ _ _ (ix_typed _ _ _ _ _ _ Hix) p2 f2 Hp2 Hf2) as (ti' & name' & Hti'' & Htf & Hdi & _).
  assert (ti' = ti2) as -> by congruence.
  pose proof (lk_answers (pr_env P) _ root version g _ _ _ _ Htf) as Ha.
  destruct (visited_occs _ _ _ _ _ _ _ _ _ _ _ _ _ Htf Ha st Hv) as (_ & Ho & _).
  apply elem_of_list_split in Hn2 as (a2 & b2 & E2).
  assert (Hnp : ∀ pp, o_kind o ≠ OPkgName pp) by (intros pp; destruct V as (_ & V & _); by apply V).
  pose proof (visible_plain P digest g0 g ti2 par2 i2 (ix_loaded _ _ _ _ _ _ Hix) Htab Hst V) as Hplain.
  assert (Hnl : id_pos i ∉ map fst (local_defs g p2 ti2 tbl f2)).
  { destruct Hother as [<-|Hother].
    - eapply C11_same_package_not_local; [|intros c Hc; by apply Hcase]. assert (tbl = tbl1) as -> by congruence. exact Hl.
    - eapply C11_other_file_not_local; [exact Htf|exact Hdi|exact Hother]. }
  apply no_switch_none in S.
  eexists _, (Reference (i_symbol info) (ident_span (pr_fs P) i2) (docs_deprecated (i_documentation info))).
  split; [exists n; cbn; rewrite Em, documents_msgs; done|]. cbn [to_document d_occs]. rewrite Ho, E2.
  split; [|split; [reflexivity|split; [exact Hs|reflexivity]]].
  right. apply nsoccs_elem. eexists a2, _, b2. split; [done|].
  pose proof (use_occ g (pr_fs P) p2 ti2 tbl (imports_of (pr_heap P) p2) (lk (pr_env P) root version g)
    ([] ++ omap (local_def g p2 ti2 tbl) a2) par2 i2 o Hplain S Hu) as H. cbn zeta in H.
  assert (index_of (o_pos o) (([] ++ omap (local_def g p2 ti2 tbl) a2) ++ option_list (local_def g p2 ti2 tbl (par2, NIdent i2))) = None) as Hixn.
  { apply index_of_none. rewrite Hop. intros Hin. apply Hnl. unfold local_defs. rewrite E2, omap_app, List.map_app.
    cbn in Hin. rewrite List.map_app in Hin. apply elem_of_app in Hin as [Hin|Hin]; apply elem_of_app; [by left|right].
    unfold omap. cbn. destruct (local_def g p2 ti2 tbl (par2, NIdent i2)); cbn in *; [|by apply elem_of_nil in Hin].
    apply elem_of_list_singleton in Hin as ->. left. }
  rewrite Hixn in H. apply (H info).
  pose proof (tf_uses _ _ _ _ _ Htf _ _ Hu Hnp) as Hgo.
  assert (Hr : resolves (pr_env P) root version g o (Found info)).
  { eapply rs_own; [done|done|exact Hpk|by rewrite Htp|]. rewrite Htp, Hop. by exists p, tbl1. }
  apply (answer_resolves (pr_env P) (pr_objs P) g root version o _ Hgo) in Hr. unfold lk. by rewrite Hr.
Qed.
End Reg.

(** *** Members of anonymous types *)
Lemma literal_sub l r fields : literal l r fields → NFieldList fields ∈ node_children l.
Proof. destruct 1; left. Qed.
Lemma leads_to_sub t l : leads_to t l → l ∈ subnodes t.
Proof.
  induction 1 as [| q k v l _ IH| q k v l _ IH|q len e l _ IH|q x l _ IH]; [apply subnodes_self|..].
  - eapply subnodes_child; [|exact IH]. left.
  - eapply subnodes_child; [|exact IH]. right; left.
  - eapply subnodes_child; [|exact IH]. destruct len; [right; left|left].
  - eapply subnodes_child; [|exact IH]. left.
Qed.
Lemma nested_sub fields lits i fld : nested fields lits i fld →
  fld ∈ subnodes (NFieldList fields) ∧ NIdent i ∈ node_children fld ∧ ∃ fd fc names ft, fld = NField fd fc names ft ∧ i ∈ names.
Proof.
  induction 1 as [fields fd fc names ft i Hf Hi|fields fd fc names ft l r fields' lits i f Hf _ Hl Hlit _ IH].
  - split; [eapply subnodes_child; [exact Hf|apply subnodes_self]|]. split; [|by eauto 10].
    cbn. apply elem_of_app. left. by apply elem_of_list_fmap_1.
  - destruct IH as (I1 & I2 & I3). split; [|done].
    eapply subnodes_child; [exact Hf|]. eapply subnodes_child; [apply elem_of_app; right; left|].
    eapply subnodes_trans; [by apply leads_to_sub|]. eapply subnodes_child; [by eapply literal_sub|exact I1].
Qed.
Lemma owner_sub fs decl ds fields : owner fs decl ds fields → NFieldList fields ∈ subnodes decl.
Proof.
  destruct 1 as [p doc specs sd T tps l r fields Hs Hl|p tok doc specs sd sc x l r fields vs _ Hs Hl].
  - eapply subnodes_child; [exact Hs|]. eapply subnodes_child; [right; right; left|].
    eapply subnodes_child; [by eapply literal_sub|apply subnodes_self].
  - eapply subnodes_child; [exact Hs|]. eapply subnodes_child; [right; left|].
    eapply subnodes_child; [by eapply literal_sub|apply subnodes_self].
Qed.
Lemma member_node fs f ds lits i fld : file_member fs f ds lits i fld →
  (Some fld, NIdent i) ∈ file_nodes f ∧ NIdent i ∈ subnodes f ∧ below_decl f i ∧ ∃ fd fc names ft, fld = NField fd fc names ft ∧ i ∈ names.
Proof.
  intros (p & h & d & nm & decls & decl & fields & -> & Hd & Ho & Hn).
  destruct (nested_sub _ _ _ _ Hn) as (H1 & H2 & H3).
  assert (fld ∈ subnodes decl) as H by (eapply subnodes_trans; [by eapply owner_sub|done]).
  assert (NIdent i ∈ subnodes decl) as Hid by (eapply subnodes_trans; [exact H|]; eapply subnodes_child; [exact H2|apply subnodes_self]).
  split; [|split; [eapply subnodes_child; [|exact Hid]; by right|split; [|done]]].
  - unfold file_nodes. cbn [file_decls]. apply elem_of_concat_map. exists decl. split; [done|].
    apply with_parent_elem. right. eauto.
  - eexists _, _, _, _, _, decl. split; [done|]. split; [done|]. unfold poss. apply elem_of_list_fmap. exists (NIdent i). done.
Qed.

(** C63: a named member of an anonymous struct or interface type inside a type or variable declaration: the document
    of its file describes its symbol, its identifier is a definition of it, and every use of the member, in any file
    of the project, is a reference to it. *)
Theorem C63_anonymous_members_partial : ∀ digest P msgs p f ti ds lits texts i fld def,
  indexed_with digest P msgs → p ∈ pr_pkgs P → f ∈ p_syntax p → p_info p = Some ti →
  wf_pkg_pos p → pkg_common_value_types p →
  file_member (pr_fs P) f ds lits i fld → Forall2 (λ r t, ti_canon ti r = Some t) lits texts →
  (0 < id_pos i)%Z → id_name i ≠ "_" → no_switch ti i →
  ti_defs ti (id_ptr i) = Some def → ti_uses ti (id_ptr i) = None → p_path p ≠ "unsafe" →
  ∃ m, p_module p = Some m ∧
    let s := anon_symbol digest (p_path p) m ds texts (id_name i) in
    describes P msgs p f s ∧ defines P msgs p f i s ∧
    (∀ p2 f2 i2, use_of P p (id_pos i) p2 f2 i2 → refers P msgs p2 f2 i2 s).
Proof.
  intros digest P msgs p f ti ds lits texts i fld def Hx Hp Hf Hti Hwf Hcv Hm Ht Hpos Hnb S Hdef Hnu Hun.
  destruct (member_node _ _ _ _ _ _ Hm) as (Hnode & Hsub & Hb & fd & fc & names & ft & -> & Hi).
  assert (Hso : ∃ fields, pkg_owner (pr_fs P) p ds fields ∧ nested fields lits i (NField fd fc names ft)).
  { destruct Hm as (a & h & d & nm & decls & decl & fields & E & Hd & Ho & Hn). exists fields. split; [|done].
    exists f, a, h, d, nm, decls, decl. done. }
  destruct Hso as (fields & Ho & Hn).
  assert (Hmod : ∃ m, p_module p = Some m).
  { destruct Hx as (objstr & mo & root & version & impl & ie & po & ao & po2 & skip & meta & w & Hix & _).
    eapply project_module; [exact Hix|exact Hp]. }
  destruct Hmod as [m Hmod].
  assert (Hreg : registers digest P p i (anon_symbol digest (p_path p) m ds texts (id_name i))).
  { intros ti' tbl Hti' Hv. assert (ti' = ti) as -> by congruence.
    destruct (C52_anonymous_members digest ti (pr_fs P) (pr_env P) p tbl ds fields lits texts i _ Hwf Hcv Ho Hn Ht Hpos Hv) as (m' & info & Hm' & Hl & Hs).
    assert (m' = m) as -> by congruence. by exists info. }
  exists m. split; [done|]. cbv zeta. split; [|split].
  - eapply registered_described; [exact Hx|exact Hp|exact Hf|exact Hti|exact Hwf|exact Hb|exact Hpos|exact Hreg|].
    exact Hsub.
  - eapply registered_defined; [exact Hx|exact Hp|exact Hf|exact Hti|exact Hwf|exact Hb|exact Hpos|exact Hreg|exact Hnode| |done|exact Hdef].
    split; [done|]. split; [intros o pp; rewrite Hnu; done|done].
  - intros p2 f2 i2 Huse. eapply registered_referred; [exact Hx|exact Hp|exact Hf|exact Hti|exact Hwf|exact Hb|exact Hpos|exact Hreg|done|done].
Qed.
Print Assumptions C63_anonymous_members_partial.
