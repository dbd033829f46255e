(** C73: imports and package qualifiers lead to the package clauses of the package, in the index of the project and, for
    packages of other modules, in the index of the repository that provides them. *)
From Coq Require Import Ascii String.
From stdpp Require Import prelude strings gmap sorting.
From Verif Require Import GoStr Scip GoTypes Packages Symbols Document Lookup Pass1 Pass2 Paths
  Regex Semver SpecSemver Loader Index Ast SpecSymbol SpecDecl SpecLookup SpecOcc SpecIndex SpecPrecise
  P_Symbols P_Pass1 P_Link P_Lookup P_Pass2 P_Occ P_Scope P_Index P_Precise PropDecl PropOcc PropIndex PropModule PropCross PropNav PropPrecise PropUnique
  ExDecl ExOcc ExIndex ExCross SpecImport.
Open Scope string_scope.
Open Scope list_scope.

(** *** Specification *)
(** the index has a definition (a reference) of symbol s with range r in the document of file f *)
Definition occurs (P : project) (msgs : list message) (p : gpkg) (f : node) (role : nat) (r : list Z) (s : string) : Prop :=
  ∃ d o, document_of (pr_pkgs P) (documents msgs) p f d ∧ o ∈ d_occs d ∧ oc_roles o = role ∧ oc_symbol o = s ∧ oc_range o = r.
(** a package that is loaded, with its module *)
Definition loaded_package (P : project) (path : string) (m : gmodule) : Prop :=
  ∃ q p, pr_all P !! path = Some q ∧ pr_heap P !! q = Some p ∧ p_module p = Some m.
(** file f of package p has an import spec (alias nm; the literal at pos) of the package with the given path *)
Definition imports_package (P : project) (p : gpkg) (f : node) (nm : option Ast.ident) (pos : Z) (path : string) : Prop :=
  ∃ par ptr lit ti o ipath imp, (par, NImportSpec ptr nm pos lit) ∈ file_nodes f ∧ p_info p = Some ti ∧
    ti_pkgname_of ti ptr = Some o ∧ o_kind o = OPkgName ipath ∧ imported (pr_heap P) p ipath imp ∧ p_path imp = path.
(** identifier x of file f of package p is the name of a package in a qualified identifier x.S *)
Definition qualifies (p : gpkg) (f : node) (x : Ast.ident) (path : string) : Prop :=
  ∃ s ti o, (Some (NSelectorExpr (NIdent x) s), NIdent x) ∈ file_nodes f ∧ p_info p = Some ti ∧
    ti_uses ti (id_ptr x) = Some o ∧ o_kind o = OPkgName path.
(** the range of the import path, without its quotes, and of an identifier by the length of its name *)
Definition path_range (P : project) (pos : Z) (path : string) : list Z := text_span (fs_position (pr_fs P) pos) 1 (slen path).
Definition name_range (P : project) (i : Ast.ident) : list Z := text_span (fs_position (pr_fs P) (id_pos i)) 0 (slen (id_name i)).

(** what the type checker guarantees of the objects used in p: variables, functions, types, ... are not declared at a package
    clause, and generic ones are instances of such objects, not of imported packages *)
Definition ordinary_objects (P : project) (p : gpkg) : Prop := ∀ ti ptr o, p_info p = Some ti → ti_uses ti ptr = Some o →
  (∀ pp, o_kind o ≠ OPkgName pp) →
  (∀ pp, o_kind (origin o) ≠ OPkgName pp) ∧ ∀ p' f', p' ∈ pr_pkgs P → f' ∈ p_syntax p' → o_pos o ≠ id_pos (file_ident f').

(** *** Proofs *)
Lemma package_symbol_inj m p m' p' : clean_module m → clean_module m' → package_symbol m p = package_symbol m' p' → p = p'.
Proof.
  intros H1 H2 E. unfold package_symbol in E. apply format_symbol_inj in E; [|by apply clean_module_symbol..].
  unfold normal_symbol in E. cbn in E. by injection E.
Qed.
Lemma package_symbol_ext m p m' : m_path m = m_path m' → m_version m = m_version m' → package_symbol m p = package_symbol m' p.
Proof. intros E1 E2. unfold package_symbol. by rewrite E1, E2. Qed.
Lemma project_loaded P msgs p m : indexed P msgs → p ∈ pr_pkgs P → p_module p = Some m → loaded_package P (p_path p) m.
Proof.
  intros (digest & objstr & mo & root & version & impl & ie & po & ao & po2 & skip & meta & w & Hix & _) Hp Hm.
  destruct (ix_order _ _ _ _ _ _ Hix) as [_ Hin]. destruct (Hin _ Hp) as (q & Hq & Hh).
  destruct (ix_loaded _ _ _ _ _ _ Hix) as (_ & _ & H). destruct (H _ _ _ Hq Hh) as (q' & p' & H1 & H2 & H3).
  exists q', p'. split; [done|]. split; [done|]. congruence.
Qed.
Lemma loaded_functional P path m m' : loaded_package P path m → loaded_package P path m' → m = m'.
Proof. intros (q & p & H1 & H2 & H3) (q' & p' & H1' & H2' & H3'). congruence. Qed.

(** the identifier of the package clause is no identifier of the declarations *)
Lemma clause_apart fs ti imports objs f par i : typed_file fs ti imports objs f → defs_at_idents ti f → (par, NIdent i) ∈ file_nodes f →
  id_pos i ≠ id_pos (file_ident f).
Proof.
  intros Htf [_ Hnd] Hin E. destruct (wff_file _ _ _ _ (tf_wf _ _ _ _ _ Htf)) as (p & h & d & nm & decls & ->).
  unfold node_idents in Hnd. rewrite subnodes_eq in Hnd. cbn in Hnd. apply NoDup_cons in Hnd as [Hnd _]. apply Hnd.
  cbn in E. rewrite <-E. apply elem_of_list_fmap. exists i. split; [done|]. apply elem_of_list_omap. exists (NIdent i). split; [|done].
  unfold file_nodes in Hin. cbn [file_decls] in Hin. revert Hin. generalize (Some (NFile p h d nm decls)). intros pr. clear.
  induction decls as [|c l IH]; [by intros ?%elem_of_nil|]. cbn. rewrite !elem_of_app. intros [H|H]; [left|right; by apply IH].
  rewrite <-(with_parent_snd pr c). apply elem_of_list_fmap. by exists (par, NIdent i).
Qed.

(** what a document contains *)
Lemma document_occs P msgs p f : indexed P msgs → p ∈ pr_pkgs P → f ∈ p_syntax p →
  ∃ d ti g0 g digest root version tbl sym, document_of (pr_pkgs P) (documents msgs) p f d ∧ p_info p = Some ti ∧
    tables_ok digest (pr_env P) (pr_fs P) (pr_heap P) (pr_all P) (pr_pkgs P) g0 ∧ same_tables g0 g ∧
    typed_file (pr_fs P) ti (imports_of (pr_heap P) p) (pr_objs P) f ∧ defs_at_idents ti f ∧
    g_symbols g !! p_path p = Some (p, tbl) ∧ g_pkgsyms g !! p_path p = Some sym ∧
    indexable (pr_objs P) (pr_fs P) (pr_heap P) (pr_all P) (pr_proj P) (pr_pkgs P) ∧
    d_occs d = clause_occurrence (pr_fs P) sym f ::
      nodes_occs g (pr_fs P) p ti tbl (imports_of (pr_heap P) p) (lk (pr_env P) root version g) [] (file_nodes f) ∧
    ∀ d', document_of (pr_pkgs P) (documents msgs) p f d' → d_occs d' = d_occs d.
Proof.
  intros (digest & objstr & mo & root & version & impl & ie & po & ao & po2 & skip & meta & w & Hix & Hmo & H1 & H2 & H3 & Hic & Hrun) Hp Hf.
  destruct P as [env objs fs h all proj ps]. cbn in *.
  destruct (success digest env objs fs h objstr mo root version all proj ps impl ie po ao po2 skip meta w Hix Hmo H1 H2 H3 Hic msgs Hrun) as (ds & exts & g0 & g & kk & -> & Htab & _ & Hst & Hds).
  assert ((p, f) ∈ files_in_order ps) as [n Hi]%elem_of_list_lookup by by apply files_elem.
  destruct (Forall2_lookup_l _ _ _ _ _ Hds Hi) as (d & Hdn & Hdoc). cbn in Hdoc.
  destruct Hdoc as (ti & tbl & st & sym & name & torder & lorder & Hti & Hname & Hg' & Hsym & Hv & Hto & Hlo & ->).
  destruct (tpj_info _ _ _ _ (ix_typed _ _ _ _ _ _ Hix) p f Hp Hf) as (ti' & name' & Hti' & Htf & Hdi & _).
  assert (ti' = ti) as -> by congruence.
  pose proof (lk_answers env _ root version g _ _ _ _ Htf) as Ha.
  destruct (visited_occs _ _ _ _ _ _ _ _ _ _ _ _ _ Htf Ha st Hv) as (_ & Ho & _).
  eexists _, ti, g0, g, digest, root, version, tbl, sym. rewrite documents_msgs.
  split; [exists n; split; [exact Hi|exact Hdn]|]. repeat (split; [done|]).
  intros d' (n' & Hi' & Hd').
  assert (n' = n) as -> by (exact (tpj_files _ _ _ _ (ix_typed _ _ _ _ _ _ Hix) _ _ _ _ _ _ _ Hi' Hi Hname Hname)).
  rewrite Hdn in Hd'. by injection Hd' as <-.
Qed.
Lemma loaded_symbol P digest g0 g path m : tables_ok digest (pr_env P) (pr_fs P) (pr_heap P) (pr_all P) (pr_pkgs P) g0 → same_tables g0 g →
  loaded_package P path m → g_pkgsyms g !! path = Some (package_symbol m path).
Proof. intros Ht Hst (q & p & H1 & H2 & H3). rewrite <-(proj1 Hst). by eapply tk_syms. Qed.

(** C73: every import spec refers to the package, with its path and with its alias unless that is . or _ *)
Theorem C73_imports : ∀ P msgs p f nm pos path m,
  indexed P msgs → p ∈ pr_pkgs P → f ∈ p_syntax p → imports_package P p f nm pos path → loaded_package P path m →
  occurs P msgs p f role_read_access (path_range P pos path) (package_symbol m path) ∧
  ∀ i, nm = Some i → id_name i ≠ "." → id_name i ≠ "_" → occurs P msgs p f role_read_access (name_range P i) (package_symbol m path).
Proof.
  intros P msgs p f nm pos path m Hidx Hp Hf (par & ptr & lit & ti & o & ipath & imp & Hin & Hti & Hpn & Hk & Himp & <-) Hl. apply imports_of_imported in Himp.
  destruct (document_occs P msgs p f Hidx Hp Hf) as (d & ti' & g0 & g & digest & root & version & tbl & sym & Hd & Hti' & Htab & Hst & Htf & _ & _ & _ & _ & Ho & _).
  assert (ti' = ti) as -> by congruence. pose proof (loaded_symbol P digest g0 g _ _ Htab Hst Hl) as Hs.
  apply elem_of_list_split in Hin as (l1 & l2 & E).
  assert (Hin : ∀ r, r ∈ import_refs g (pr_fs P) ti (imports_of (pr_heap P) p) ptr nm pos → r ∈ d_occs d).
  { intros r Hr. rewrite Ho, E. right. apply nsoccs_elem. by eexists l1, _, l2. }
  unfold import_refs in Hin. rewrite Hpn, Hk, Himp, Hs in Hin. split.
  - eexists d, _. split; [done|]. split; [apply Hin, elem_of_app; right; by apply elem_of_list_singleton|]. done.
  - intros i -> Hd1 Hd2. eexists d, _. split; [done|]. split; [apply Hin, elem_of_app; left|].
    + destruct (String.eqb_spec (id_name i) "."); [done|]. destruct (String.eqb_spec (id_name i) "_"); [done|]. cbn [orb]. by apply elem_of_list_singleton.
    + done.
Qed.
Print Assumptions C73_imports.

(** C73: the package name in every qualified identifier refers to the package *)
Theorem C73_qualifiers : ∀ P msgs p f x path m,
  indexed P msgs → p ∈ pr_pkgs P → f ∈ p_syntax p → qualifies p f x path → loaded_package P path m →
  occurs P msgs p f role_read_access (ident_span (pr_fs P) x) (package_symbol m path).
Proof.
  intros P msgs p f x path m Hidx Hp Hf (s & ti & o & Hin & Hti & Hu & Hk) Hl.
  destruct (document_occs P msgs p f Hidx Hp Hf) as (d & ti' & g0 & g & digest & root & version & tbl & sym & Hd & Hti' & Htab & Hst & Htf & _ & _ & _ & _ & Ho & _).
  assert (ti' = ti) as -> by congruence. pose proof (loaded_symbol P digest g0 g _ _ Htab Hst Hl) as Hs.
  apply elem_of_list_split in Hin as (l1 & l2 & E).
  eexists d, (Reference (package_symbol m path) (ident_span (pr_fs P) x) false). split; [done|]. split; [|done].
  rewrite Ho, E. right. apply nsoccs_elem. eexists l1, _, l2. split; [done|]. cbn [node_occs hidden].
  assert (Hn : names_package ti x = Some (o, path)) by (unfold names_package; by rewrite Hu, Hk).
  rewrite Hn, Hs. by apply elem_of_list_singleton.
Qed.
Print Assumptions C73_qualifiers.

(** C73: the package clause of every file defines the package's symbol *)
Theorem C73_clauses : ∀ P msgs p f m,
  indexed P msgs → p ∈ pr_pkgs P → f ∈ p_syntax p → p_module p = Some m →
  occurs P msgs p f role_definition (name_range P (file_ident f)) (package_symbol m (p_path p)).
Proof.
  intros P msgs p f m Hidx Hp Hf Hm.
  destruct (document_occs P msgs p f Hidx Hp Hf) as (d & ti & g0 & g & digest & root & version & tbl & sym & Hd & _ & Htab & Hst & _ & _ & _ & Hsym & _ & Ho & _).
  rewrite (loaded_symbol P digest g0 g _ _ Htab Hst (project_loaded _ _ _ _ Hidx Hp Hm)) in Hsym. apply (inj Some) in Hsym as <-.
  eexists d, _. split; [done|]. split; [rewrite Ho; left|]. done.
Qed.
Print Assumptions C73_clauses.

(** C73: inside the project: the import (qualifier) in file f and the package clause of every file f' of the imported package
    p' have the same symbol. *)
Theorem C73_in_project : ∀ P msgs p f p' f',
  indexed P msgs → p ∈ pr_pkgs P → f ∈ p_syntax p → p' ∈ pr_pkgs P → f' ∈ p_syntax p' →
  ∃ s, occurs P msgs p' f' role_definition (name_range P (file_ident f')) s ∧
    (∀ nm pos, imports_package P p f nm pos (p_path p') → occurs P msgs p f role_read_access (path_range P pos (p_path p')) s) ∧
    (∀ x, qualifies p f x (p_path p') → occurs P msgs p f role_read_access (ident_span (pr_fs P) x) s).
Proof.
  intros P msgs p f p' f' Hidx Hp Hf Hp' Hf'.
  assert (Hm : ∃ m, p_module p' = Some m).
  { destruct Hidx as (digest & objstr & mo & root & version & impl & ie & po & ao & po2 & skip & meta & w & Hix & _).
    destruct (ix_order _ _ _ _ _ _ Hix) as [_ Hin]. destruct (Hin _ Hp') as (q & Hq & Hh).
    destruct (ix_loaded _ _ _ _ _ _ Hix) as (_ & Hkp & _). destruct (Hkp _ _ Hq) as (p'' & m & Hh' & _ & Hm).
    assert (p'' = p') as -> by congruence. by exists m. }
  destruct Hm as (m & Hm). pose proof (project_loaded _ _ _ _ Hidx Hp' Hm) as Hl.
  exists (package_symbol m (p_path p')). split; [by apply C73_clauses|]. split.
  - intros nm pos Hi. by apply (C73_imports P msgs p f nm pos (p_path p') m).
  - intros x Hx. by apply C73_qualifiers.
Qed.
Print Assumptions C73_in_project.

(** C73: across repositories: A is the index of the repository of module mA at the version the program B requires; raw
    packages as in C56. *)
Theorem C73_cross_repository : ∀ A msgsA oA wA rawA mA pA f B msgsB oB wB rawB mB dep q p2 f2,
  indexed A msgsA → indexed B msgsB →
  main_module oA rawA mA → normalize_package oA wA rawA = Ok pA → pA ∈ pr_pkgs A → f ∈ p_syntax pA →
  required_module oB rawB mB → normalize_package oB wB rawB = Ok dep →
  pr_all B !! p_path dep = Some q → pr_heap B !! q = Some dep → p2 ∈ pr_pkgs B → f2 ∈ p_syntax p2 →
  p_path rawB = p_path rawA → m_path mB = m_path mA → normalised (m_version mB) (io_module_version oA) →
  ∃ s, occurs A msgsA pA f role_definition (name_range A (file_ident f)) s ∧
    (∀ nm pos, imports_package B p2 f2 nm pos (p_path dep) → occurs B msgsB p2 f2 role_read_access (path_range B pos (p_path dep)) s) ∧
    (∀ x, qualifies p2 f2 x (p_path dep) → occurs B msgsB p2 f2 role_read_access (ident_span (pr_fs B) x) s).
Proof.
  intros A msgsA oA wA rawA mA pA f B msgsB oB wB rawB mB dep q p2 f2 HA HB MA NA PA FA MB NB Q1 Q2 P2 F2 Hp Hm Hv.
  destruct (same_module oA wA rawA mA pA oB wB rawB mB dep MA NA MB NB Hp Hm Hv) as (Hpath & m & m' & Em & Em' & E1 & E2).
  exists (package_symbol m (p_path pA)). split; [by apply C73_clauses|].
  assert (Hl : loaded_package B (p_path dep) m') by (by exists q, dep).
  rewrite Hpath, (package_symbol_ext m _ m') by done. split.
  - intros nm pos Hi. by apply (C73_imports B msgsB p2 f2 nm pos (p_path dep) m').
  - intros x Hx. by apply C73_qualifiers.
Qed.
Print Assumptions C73_cross_repository.

(** C73, precision: nothing but the package clauses of its files defines the symbol of a project package. *)
Theorem C73_only_clauses : ∀ P msgs p m p2 f2 r,
  indexed P msgs → clean_modules P → p ∈ pr_pkgs P → p_module p = Some m → p2 ∈ pr_pkgs P → f2 ∈ p_syntax p2 →
  occurs P msgs p2 f2 role_definition r (package_symbol m (p_path p)) →
  p2 = p ∧ r = name_range P (file_ident f2).
Proof.
  intros P msgs p m p2 f2 r Hidx Hcl Hp Hm Hp2 Hf2 (d' & o & Hd' & Hoin & Hro & Hs & Hr).
  destruct (document_occs P msgs p2 f2 Hidx Hp2 Hf2) as (d & ti & g0 & g & digest & root & version & tbl & sym & Hd & Hti & Htab & Hst & Htf & Hdi & Hg & Hsym & Hix & Ho & Hall).
  rewrite (Hall _ Hd'), Ho in Hoin.
  assert (Hmod : ∃ m2, p_module p2 = Some m2).
  { destruct (ix_order _ _ _ _ _ _ Hix) as [_ Hin]. destruct (Hin _ Hp2) as (q & Hq & Hh).
    destruct (ix_loaded _ _ _ _ _ _ Hix) as (_ & Hkp & _). destruct (Hkp _ _ Hq) as (p'' & m2 & Hh' & _ & Hm2).
    assert (p'' = p2) as -> by congruence. by exists m2. }
  destruct Hmod as (m2 & Hm2).
  pose proof (project_clean _ _ _ _ _ _ Hix Hcl _ _ Hp Hm) as Hc. pose proof (project_clean _ _ _ _ _ _ Hix Hcl _ _ Hp2 Hm2) as Hc2.
  apply elem_of_cons in Hoin as [->|Hoin].
  - rewrite (loaded_symbol P digest g0 g _ _ Htab Hst (project_loaded _ _ _ _ Hidx Hp2 Hm2)) in Hsym. apply (inj Some) in Hsym as <-.
    cbn in Hs. apply package_symbol_inj in Hs; [|done..]. split; [by eapply same_path|]. by rewrite <-Hr.
  - exfalso. apply nsoccs_explained in Hoin as (l1 & e & l2 & Hsplit & He).
    assert (Hin : e ∈ file_nodes f2) by (rewrite Hsplit; apply elem_of_app; right; left).
    assert (He' : e.2 ∈ subnodes f2) by (by eapply file_nodes_sub).
    destruct He as [ptr nm pp lit o Hn Hi'|i u pth sy Hn _ _|i pp u encl Hn Hld _|i def info Hn _ Hdef Hreg|i u q Hn _ _ _|i u info Hn _ _ _]; try done.
    + by eapply import_refs_ref.
    + cbn in Hs. rewrite Hn in He'. assert (Hat : o_pos def = id_pos i) by (by eapply (proj1 Hdi)).
      assert (Ht : tbl !! o_pos def = Some info). { unfold registered in Hreg. rewrite Hg in Hreg. by destruct (tbl !! o_pos def). }
      destruct (pass1_entry digest _ _ _ _ _ g0 g p2 tbl _ info Htab Hst Hp2 Hg Ht) as (m' & first & rest & Hm' & Hsy & [(ds & Hds & Es)|(Epos & _)]).
      * rewrite Hs in Es. unfold package_symbol in Es. assert (m' = m2) as -> by congruence.
        apply format_symbol_inj in Es; [|by apply clean_module_symbol..]. unfold normal_symbol in Es. cbn in Es.
        injection Es as _ _ _ <-. done.
      * (* the identifier would be the one of the package clause *)
        rewrite Hat in Epos.
        assert (Hff : first ∈ p_syntax p2) by (rewrite Hsy; left).
        destruct (tpj_info _ _ _ _ (ix_typed _ _ _ _ _ _ Hix) p2 f2 Hp2 Hf2) as (_ & name2 & _ & _ & _ & Hn2).
        destruct (tpj_info _ _ _ _ (ix_typed _ _ _ _ _ _ Hix) p2 first Hp2 Hff) as (ti1 & name1 & _ & Htf1 & _ & Hn1).
        pose proof (ix_idents _ _ _ _ _ _ Hix p2 f2 name2 i Hp2 Hf2 Hn2 He') as F2.
        assert (Hid1 : NIdent (file_ident first) ∈ subnodes first).
        { destruct (wff_file _ _ _ _ (tf_wf _ _ _ _ _ Htf1)) as (pp & hh & dd & nm & decls & ->). cbn. right. left. }
        pose proof (ix_idents _ _ _ _ _ _ Hix p2 first name1 _ Hp2 Hff Hn1 Hid1) as F1.
        rewrite <-Epos, F2 in F1. injection F1 as <-.
        assert ((p2, first) ∈ files_in_order (pr_pkgs P)) as [n1 L1]%elem_of_list_lookup by by apply files_elem.
        assert ((p2, f2) ∈ files_in_order (pr_pkgs P)) as [n2 L2]%elem_of_list_lookup by by apply files_elem.
        assert (n1 = n2) as -> by (exact (tpj_files _ _ _ _ (ix_typed _ _ _ _ _ _ Hix) _ _ _ _ _ _ _ L1 L2 Hn1 Hn2)).
        assert (first = f2) as -> by congruence.
        destruct e as [par nd]. cbn in Hn. subst nd. exact (clause_apart _ _ _ _ _ _ _ Htf Hdi Hin Epos).
Qed.
Print Assumptions C73_only_clauses.

(** composed symbols of objects that are no packages are no package symbols *)
Lemma composed_not_package digest P g0 g root version o tp p t m path :
  indexable (pr_objs P) (pr_fs P) (pr_heap P) (pr_all P) (pr_proj P) (pr_pkgs P) → clean_modules P →
  tables_ok digest (pr_env P) (pr_fs P) (pr_heap P) (pr_all P) (pr_pkgs P) g0 → same_tables g0 g → clean_module m →
  (∀ pp, o_kind (origin o) ≠ OPkgName pp) → go_object (pr_objs P) o → o_pkg o = Some tp → g_symbols g !! tp_path tp = Some (p, t) →
  composed (pr_env P) root version p o ≠ package_symbol m path.
Proof.
  intros Hix Hcl Htab Hst Hc1 Hno Hgo Hpk Hg Hs. destruct P as [env objs fs h all proj ps]. cbn in *.
  assert (Hmod : ∃ m, p_module p = Some m ∧ clean_module m).
  { apply same_tables_sym in Hst. destruct (same_tables_lookup _ _ _ _ _ Hst Hg) as (t0 & Hg0 & _).
    destruct (decide (tp_path tp ∈ map p_path ps)) as [Hin|Hout].
    - apply elem_of_list_fmap in Hin as (p' & E & Hp'). destruct (tk_proj _ _ _ _ _ _ _ Htab p' Hp') as (t1 & Hg1 & _).
      rewrite E, Hg1 in Hg0. injection Hg0 as -> _.
      destruct (ix_order _ _ _ _ _ _ Hix) as [_ Hin']. destruct (Hin' _ Hp') as (q & Hq & Hh).
      destruct (ix_loaded _ _ _ _ _ _ Hix) as (_ & Hkp & _). destruct (Hkp _ _ Hq) as (p'' & m' & Hh' & _ & Hm).
      assert (p'' = p) as -> by congruence. exists m'. split; [done|]. exact (project_clean _ _ _ _ _ _ Hix Hcl _ _ Hp' Hm).
    - destruct (all !! tp_path tp) as [q|] eqn:Eq.
      + destruct (ix_loaded _ _ _ _ _ _ Hix) as (Hka & _). destruct (Hka _ _ Eq) as (p'' & m' & Hh & _ & Hm).
        rewrite (tk_all _ _ _ _ _ _ _ Htab _ _ _ Eq Hh Hout) in Hg0. injection Hg0 as -> _. exists m'. split; [done|]. by eapply Hcl.
      + by rewrite (tk_none _ _ _ _ _ _ _ Htab _ Eq Hout) in Hg0. }
  destruct Hmod as (m' & Hm & Hc).
  unfold composed, compose in Hs. rewrite Hpk in Hs. cbn [c_memo new_composer assoc_nat] in Hs.
  pose proof (go_origin _ _ Hgo) as Hor. rewrite Hpk in Hor. cbn in Hor.
  destruct (o_pkg (origin o)) as [tp'|]; [|done].
  destruct (describe env tp' (origin o)) as [|d ds] eqn:Ed.
  { cbn in Hs. symmetry in Hs. by apply format_symbol_nonempty in Hs. }
  cbn [fst] in Hs. unfold pack in Hs. rewrite Hm in Hs. unfold package_symbol in Hs.
  apply format_symbol_inj in Hs; [|by apply clean_module_symbol..].
  assert (E : d :: ds = [Desc path Namespace]) by exact (f_equal s_descriptors Hs). rewrite <-Ed in E. clear -E Hno.
  unfold describe in E. destruct (o_kind (origin o)) eqn:Ek; repeat case_match; try discriminate E. by eapply Hno.
Qed.

(** C73, precision: nothing but imports and qualifiers of a loaded package refers to its symbol. *)
Theorem C73_only_imports : ∀ P msgs path m p2 f2 r,
  indexed P msgs → clean_modules P → loaded_package P path m → p2 ∈ pr_pkgs P → f2 ∈ p_syntax p2 →
  ordinary_objects P p2 →
  occurs P msgs p2 f2 role_read_access r (package_symbol m path) →
  (∃ nm pos, imports_package P p2 f2 nm pos path ∧ (r = path_range P pos path ∨ ∃ i, nm = Some i ∧ r = name_range P i)) ∨
  (∃ x, qualifies p2 f2 x path ∧ r = ident_span (pr_fs P) x).
Proof.
  intros P msgs path m p2 f2 r Hidx Hcl Hl Hp2 Hf2 Hfar (d' & o & Hd' & Hoin & Hro & Hs & Hr).
  destruct (document_occs P msgs p2 f2 Hidx Hp2 Hf2) as (d & ti & g0 & g & digest & root & version & tbl & sym & Hd & Hti & Htab & Hst & Htf & Hdi & Hg & Hsym & Hix & Ho & Hall).
  rewrite (Hall _ Hd'), Ho in Hoin.
  assert (Hc : clean_module m) by (destruct Hl as (q & p & A1 & A2 & A3); by eapply Hcl).
  assert (Hpkg : ∀ path', g_pkgsyms g !! path' = Some (package_symbol m path) → path' = path).
  { intros path' E. rewrite <-(proj1 Hst) in E. destruct (pr_all P !! path') as [q|] eqn:Eq.
    - destruct (ix_loaded _ _ _ _ _ _ Hix) as (Hka & _). destruct (Hka _ _ Eq) as (p' & m' & Hh & _ & Hm').
      rewrite (tk_syms _ _ _ _ _ _ _ Htab _ _ _ _ Eq Hh Hm') in E. apply (inj Some) in E.
      apply package_symbol_inj in E; [done|by eapply Hcl|done].
    - by rewrite (tk_nosym _ _ _ _ _ _ _ Htab path' Eq) in E. }
  apply elem_of_cons in Hoin as [->|Hoin]; [done|].
  apply nsoccs_elem in Hoin as (l1 & e & l2 & Hsplit & Hnode). pose proof (noccs_explained _ _ _ _ _ _ _ _ _ _ Hnode) as He.
  assert (Hin : e ∈ file_nodes f2) by (rewrite Hsplit; apply elem_of_app; right; left).
  destruct He as [ptr nm pp lit o Hn Hi'|x u pth sy Hn Hnp Hsy|i pp u encl Hn Hld _|i def info Hn _ Hdef Hreg|i u q Hn _ _ _|i u info Hn Hpl Hu Hlk].
  - left. destruct e as [par nd]. cbn in Hn. subst nd. unfold import_refs in Hi'.
    destruct (ti_pkgname_of ti ptr) as [po|] eqn:Epn; [|by apply elem_of_nil in Hi'].
    destruct (o_kind po) eqn:Ek; try by apply elem_of_nil in Hi'.
    destruct (imports_of _ _ imported_path) as [imp|] eqn:Ei; [|by apply elem_of_nil in Hi'].
    destruct (g_pkgsyms g !! p_path imp) as [sy|] eqn:E; [|by apply elem_of_nil in Hi'].
    assert (Ep : p_path imp = path ∧ (r = path_range P pp (p_path imp) ∨ ∃ i, nm = Some i ∧ r = name_range P i)).
    { apply elem_of_app in Hi' as [Hi'|Hi'].
      - destruct nm as [j|]; [|by apply elem_of_nil in Hi']. destruct (_ || _)%bool; [by apply elem_of_nil in Hi'|].
        apply elem_of_list_singleton in Hi' as ->. cbn in Hs. subst sy. split; [by apply Hpkg|]. right. exists j. split; [done|]. by rewrite <-Hr.
      - apply elem_of_list_singleton in Hi' as ->. cbn in Hs. subst sy. split; [by apply Hpkg|]. left. by rewrite <-Hr. }
    destruct Ep as [<- Hrr]. exists nm, pp. split; [|done]. apply imports_of_imported in Ei. by eexists par, ptr, lit, ti, po, imported_path, imp.
  - right. cbn in Hs, Hr. subst sy. apply Hpkg in Hsy as ->. exists x. split; [|done].
    unfold names_package in Hnp. destruct (ti_uses ti (id_ptr x)) as [o|] eqn:Hu; [|done].
    destruct (o_kind o) eqn:Ek; try done. injection Hnp as -> ->. destruct e as [par nd]. cbn in Hn. subst nd.
    destruct (wff_qual _ _ _ _ (tf_wf _ _ _ _ _ Htf) _ _ _ _ Hin Hu Ek) as [(rr & q & l & ->)|(s & -> & _)].
    + by apply elem_of_nil in Hnode.
    + by eexists s, ti, u.
  - done.
  - done.
  - exfalso. cbn in Hs. assert (is_local (package_symbol m path)) as Hlo by (rewrite <-Hs; apply local_name_local).
    refine (global_not_local _ _ Hlo). apply format_global.
  - exfalso. cbn in Hs.
    assert (Hnk : ∀ pp, o_kind u ≠ OPkgName pp).
    { intros pp Ek. unfold plain_ident in Hpl. destruct e as [par nd]. cbn in Hn. subst nd. destruct (hidden _ _ _); [done|].
      unfold names_package in Hpl. by rewrite Hu, Ek in Hpl. }
    pose proof (tf_uses _ _ _ _ _ Htf _ _ Hu Hnk) as Hgo.
    pose proof (lk_answers (pr_env P) _ root version g _ _ _ _ Htf) as Ha.
    assert (Hres : resolves (pr_env P) root version g u (Found info)). { specialize (Ha _ _ Hu Hnk). by rewrite Hlk in Ha. }
    assert (Hrec : ∀ id pp tt, g_symbols g !! id = Some (pp, tt) → tt !! o_pos u = Some info → False).
    { intros id pp tt Hgid Htt. destruct (decide (id ∈ map p_path (pr_pkgs P))) as [Hi|Hout].
      - apply elem_of_list_fmap in Hi as (p' & -> & Hp').
        destruct (tk_proj _ _ _ _ _ _ _ Htab p' Hp') as (t0 & Hg0 & _).
        destruct (same_tables_lookup _ _ _ _ _ Hst Hg0) as (t1 & Hg1 & _). assert (pp = p' ∧ t1 = tt) as [-> ->] by (rewrite Hgid in Hg1; by injection Hg1).
        destruct (pass1_entry digest _ _ _ _ _ g0 g p' tt _ info Htab Hst Hp' Hgid Htt) as (m' & first & rest & Hm' & Hsy & [(ds & Hds & Es)|(Epos & _)]).
        + rewrite Hs in Es. unfold package_symbol in Es.
          pose proof (project_clean _ _ _ _ _ _ Hix Hcl _ _ Hp' Hm') as Hc'.
          apply format_symbol_inj in Es; [|by apply clean_module_symbol..]. unfold normal_symbol in Es. cbn in Es.
          injection Es as _ _ _ <-. done.
        + destruct (Hfar ti _ u Hti Hu Hnk) as [_ Hp0]. eapply (Hp0 p' first); [done|rewrite Hsy; left|done].
      - apply same_tables_sym in Hst. destruct (same_tables_lookup _ _ _ _ _ Hst Hgid) as (t0 & Hg0 & Hsame).
        specialize (Hsame (o_pos u)). rewrite Htt, (tk_deps _ _ _ _ _ _ _ Htab id pp t0 Hout Hg0), lookup_empty in Hsame. done. }
    inversion Hres as [| | |tp i0 K1 K2 K3 K4 (pp & tt & K5 & K6)|tp i0 K1 K2 K3 K4 _ (pp & tt & K5 & K6)|tp i0 K1 K2 K3 K4 _ _ (pp & tt & K5 & K6)|tp pp tt K1 K2 K3 K4 K5 K6 K7 K8 K9 K10|]; subst.
    + by eapply Hrec.
    + by eapply Hrec.
    + by eapply Hrec.
    + cbn in Hs. destruct (Hfar ti _ u Hti Hu Hnk) as [Hno _]. by eapply (composed_not_package digest P g0 g).
Qed.
Print Assumptions C73_only_imports.
