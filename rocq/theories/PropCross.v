(** C56: cross-repository navigation.  A module is indexed in its own repository, and a program
    that depends on it is indexed in another: uses there have the symbols of the declarations here. *)
From Coq Require Import Ascii String.
From stdpp Require Import prelude strings gmap sorting.
From Verif Require Import GoStr Scip GoTypes Ast Packages Symbols Document Lookup Pass1 Pass2 Paths
  Regex Semver SpecSemver P_Semver Loader Index SpecSymbol SpecDecl SpecLookup SpecOcc SpecIndex Env
  P_Symbols P_Pass1 P_Link P_Lookup P_Pass2 P_Occ P_Scope P_Index PropDecl PropOcc PropIndex PropModule PropEnv ExDecl ExOcc ExIndex.
Open Scope string_scope.
Open Scope list_scope.

(** *** Specification *)
(** [indexed .. msgs]: msgs are the messages of some successful run on the loaded project *)
Record project := Project {
  pr_env : tenv; pr_objs : nat → option obj; pr_fs : fset; pr_heap : pheap;
  pr_all : ptab; pr_proj : ptab; pr_pkgs : list gpkg }.
Definition indexed (P : project) (msgs : list message) : Prop :=
  ∃ digest objstr mo root version impl impl_error po ao po2 skip meta w,
    indexable (pr_objs P) (pr_fs P) (pr_heap P) (pr_all P) (pr_proj P) (pr_pkgs P) ∧ orders_ok mo ∧
    key_order (pr_proj P) po ∧ key_order (pr_all P) ao ∧ key_order (pr_proj P) po2 ∧
    impl_contract (pr_env P) (pr_objs P) root version (pr_heap P) (pr_all P) (pr_proj P) impl ∧
    Index.index digest (pr_env P) (pr_fs P) (pr_heap P) objstr mo w impl impl_error root version skip meta
      (LoadOk (pr_all P) (pr_proj P)) po ao po2 = (msgs, Returned None).
(** the index has a definition (a reference) of symbol s that covers exactly identifier i of file f *)
Definition defines (P : project) (msgs : list message) (p : gpkg) (f : node) (i : Ast.ident) (s : string) : Prop :=
  ∃ d o, document_of (pr_pkgs P) (documents msgs) p f d ∧ o ∈ d_occs d ∧ oc_roles o = role_definition ∧
    oc_symbol o = s ∧ oc_range o = ident_span (pr_fs P) i.
Definition refers (P : project) (msgs : list message) (p : gpkg) (f : node) (i : Ast.ident) (s : string) : Prop :=
  ∃ d o, document_of (pr_pkgs P) (documents msgs) p f d ∧ o ∈ d_occs d ∧ oc_roles o = role_read_access ∧
    oc_symbol o = s ∧ oc_range o = ident_span (pr_fs P) i.

(** identifier i of file f of package p declares the package-level entity k, by name *)
Record declaration (P : project) (p : gpkg) (f : node) (i : Ast.ident) (k : dkey) : Prop := Declaration {
  dc_pkg : p ∈ pr_pkgs P; dc_file : f ∈ p_syntax p;
  dc_parent : ∃ par, file_declares f i k par ∧ match par with NField _ _ [] _ => False | _ => True end;
  dc_wf : wf_pkg_pos p; dc_values : is_value_key k = true → common_before p i; dc_pos : (0 < id_pos i)%Z;
  dc_name : id_name i ≠ "_";
  dc_typed : ∃ ti def, p_info p = Some ti ∧ ti_defs ti (id_ptr i) = Some def ∧ ti_uses ti (id_ptr i) = None ∧
    ∀ o, o ∈ ti_case_objs ti → o_pos o ≠ id_pos i }.
(** identifier i of file f of package p is a use of object o, which belongs to the dependency dep *)
Record dependency_use (P : project) (p : gpkg) (f : node) (i : Ast.ident) (o : obj) (dep : gpkg) : Prop := DependencyUse {
  du_pkg : p ∈ pr_pkgs P; du_file : f ∈ p_syntax p;
  du_typed : ∃ ti par, p_info p = Some ti ∧ (Some par, NIdent i) ∈ file_nodes f ∧
    (match par with NImportSpec _ _ _ _ | NSelectorExpr (NIdent _) _ => False | _ => True end ∨
     (∃ x s u, par = NSelectorExpr (NIdent x) s ∧ ti_uses ti (id_ptr x) = Some u ∧ ∀ pp, o_kind u ≠ OPkgName pp) ∨
     (∃ x s u imp, par = NSelectorExpr (NIdent x) s ∧ ti_uses ti (id_ptr x) = Some u ∧ o_kind u = OPkgName imp ∧ is_Some (pr_all P !! imp))) ∧
    ti_uses ti (id_ptr i) = Some o ∧ (∀ c, c ∈ ti_case_objs ti → o_pos c ≠ id_pos i);
  du_name : id_name i ≠ "_";
  (** the object is no label, nil or package name, and belongs to a loaded package outside the project *)
  du_kind : o_kind o ≠ OLabel ∧ o_kind o ≠ ONil ∧ ∀ pp, o_kind o ≠ OPkgName pp;
  du_dep : ∃ tp q, o_pkg o = Some tp ∧ tp_path tp = p_path dep ∧ p_path dep ≠ "unsafe" ∧
    pr_all P !! p_path dep = Some q ∧ pr_heap P !! q = Some dep ∧ pr_proj P !! p_path dep = None ∧
    pr_proj P !! (p_path dep +:+ ".test") = None ∧ pr_proj P !! (p_path dep +:+ " [" +:+ p_path dep +:+ ".test]") = None;
  (** it is declared in none of the project's files *)
  du_pos : ∀ i', NIdent i' ∈ subnodes f → id_pos i' ≠ o_pos o }.

(** *** Proofs *)
Lemma declaration_defined P msgs p f i k : indexed P msgs → declaration P p f i k →
  ∃ m, p_module p = Some m ∧ defines P msgs p f i (key_symbol (p_path p) m k).
Proof.
  intros (digest & objstr & mo & root & version & impl & ie & po & ao & po2 & skip & meta & w & Hix & Hmo & H1 & H2 & H3 & Hic & Hrun) [Hp Hf (par & Hd & Hpar) Hwf Hv Hpos Hnb (ti & def & Hti & Hdef & Hu & Hc)].
  destruct (C53_declarations_in_index digest (pr_env P) (pr_objs P) (pr_fs P) (pr_heap P) objstr mo root version (pr_all P) (pr_proj P) (pr_pkgs P) impl ie po ao po2 skip meta w Hix Hmo H1 H2 H3 Hic msgs Hrun
    p f i k par Hp Hf Hd Hwf Hv Hpos) as (m & d & Hm & Hdoc & _ & Ho).
  exists m. split; [done|]. destruct (Ho ti def Hti Hdef Hu Hc Hnb Hpar) as (o & Hin & Hdf & Hs & Hr). exists d, o. done.
Qed.

Lemma not_project_unrecorded digest env fs h all proj ps g0 g k : project_in_order h proj ps → tables_ok digest env fs h all ps g0 → same_tables g0 g →
  proj !! k = None → ∀ pos, unrecorded g k pos.
Proof.
  intros [[Hl _] _] Ht Hst Hk pos i (p & t & Hg & Hi). assert (Hl' : ∀ x, x ∈ map p_path ps ↔ is_Some (proj !! x)) by done.
  assert (Hn : k ∉ map p_path ps). { intros Hin%Hl'. rewrite Hk in Hin. by destruct Hin. }
  destruct (same_tables_lookup _ _ _ _ _ (same_tables_sym _ _ Hst) Hg) as (t' & Hg' & Hsame). specialize (Hsame pos). rewrite Hi in Hsame.
  rewrite (tk_deps _ _ _ _ _ _ _ Ht _ _ _ Hn Hg') in Hsame. by rewrite lookup_empty in Hsame.
Qed.

Lemma key_symbol_nonempty path m k : key_symbol path m k ≠ "".
Proof.
  intros E. pose proof (format_global m (key_descriptors path k)) as Hg. change (is_global (key_symbol path m k)) in Hg.
  rewrite E in Hg. vm_compute in Hg. congruence.
Qed.

(** a use of a dependency has the composed symbol *)
Lemma use_refers_as P msgs p f i o dep s : indexed P msgs → dependency_use P p f i o dep →
  (∀ root version, composed (pr_env P) root version dep o = s) → s ≠ "" → refers P msgs p f i s.
Proof.
  intros (digest & objstr & mo & root & version & impl & ie & po & ao & po2 & skip & meta & w & Hix & Hmo & H1 & H2 & H3 & Hic & Hrun)
    [Hp Hf (ti & par & Hti & Hn & Hpar & Hu & Hcase) Hnb (Hk1 & Hk2 & Hnp) (tp & q & Hpk & Htp & Hun & Hq & Hh & Hnj & Hnj1 & Hnj2) Hfar] Hkey Hse.
  destruct P as [env objs fs h all proj ps]. cbn in *.
  destruct (success digest env objs fs h objstr mo root version all proj ps impl ie po ao po2 skip meta w Hix Hmo H1 H2 H3 Hic msgs Hrun) as (ds & exts & g0 & g & kk & -> & Htab & _ & Hst & Hds).
  assert ((p, f) ∈ files_in_order ps) as [n Hi]%elem_of_list_lookup by by apply files_elem.
  destruct (Forall2_lookup_l _ _ _ _ _ Hds Hi) as (d & Hdn & Hdoc). cbn in Hdoc.
  destruct Hdoc as (ti' & tbl & st & sym & name & torder & lorder & Hti' & Hname & Hg' & _ & Hv & Hto & Hlo & ->).
  assert (ti' = ti) as -> by congruence.
  destruct (tpj_info _ _ _ _ (ix_typed _ _ _ _ _ _ Hix) p f Hp Hf) as (ti' & name' & Hti2 & Htf & Hdi & _).
  assert (ti' = ti) as -> by congruence.
  pose proof (lk_answers env _ root version g _ _ _ _ Htf) as Ha.
  destruct (visited_occs _ _ _ _ _ _ _ _ _ _ _ _ _ Htf Ha st Hv) as (_ & Ho & _).
  apply elem_of_list_split in Hn as (a2 & b2 & E2).
  assert (Hplain : plain_ident g ti (Some par, NIdent i) = Some i).
  { unfold plain_ident. assert (names_package ti i = None) as ->.
    { unfold names_package. rewrite Hu. destruct (o_kind o) eqn:Ek; try done. by destruct (Hnp imported_path). }
    assert (hidden g ti (Some par) = false) as ->.
    { unfold hidden, names_package. destruct Hpar as [Hpar|[(x & sl & u & -> & Hux & Hnk)|(x & sl & pn & imp & -> & Hux & Hpn & Himp)]].
      - destruct par; try done. by destruct par.
      - rewrite Hux. destruct (o_kind u) eqn:Ek; try done. by destruct (Hnk imported_path).
      - rewrite Hux, Hpn. destruct Himp as [q' Hq']. destruct (ix_loaded _ _ _ _ _ _ Hix) as (Hka & _).
        destruct (Hka _ _ Hq') as (pp & mm & Hh' & Hpp & Hmm). rewrite <-(proj1 Hst).
        by rewrite (tk_syms _ _ _ _ _ _ _ Htab _ _ _ _ Hq' Hh' Hmm). }
    by destruct (String.eqb_spec (id_name i) "_") as [Hbl|_]; [destruct Hnb|]. }
  assert (Hnl : o_pos o ∉ map fst (local_defs g p ti tbl f)) by (eapply C11_other_file_not_local; [exact Htf|exact Hdi|exact Hfar]).
  assert (Hsw : switch_object ti i = None).
  { unfold switch_object. destruct (List.find _ _) as [c|] eqn:Ef; [|done].
    apply find_some in Ef as [Ef1 Ef2]. apply Z.eqb_eq in Ef2. exfalso. apply elem_of_list_In in Ef1. by apply (Hcase c). }
  pose proof (Hkey root version) as Hc.
  assert (Hne : composed env root version dep o ≠ "") by by rewrite Hc.
  assert (Hr : resolves env root version g o (Found (bare_info (composed env root version dep o)))).
  { assert (Hu' : ∀ k, proj !! k = None → ∀ pos, unrecorded g k pos).
    { intros k'. eapply not_project_unrecorded; [apply (ix_order _ _ _ _ _ _ Hix)|exact Htab|exact Hst]. }
    assert (Hd0 : g_symbols g0 !! p_path dep = Some (dep, ∅)).
    { eapply tk_all; [exact Htab|exact Hq|exact Hh|]. destruct (ix_order _ _ _ _ _ _ Hix) as [[Hl _] _]. rewrite Hl. rewrite Hnj. by intros []. }
    destruct (same_tables_lookup _ _ _ _ _ Hst Hd0) as (t' & Hd1 & _).
    eapply (rs_composed env root version g o tp dep t'); rewrite ?Htp; auto. }
  pose proof (tf_uses _ _ _ _ _ Htf _ _ Hu Hnp) as Hgo.
  apply (answer_resolves env objs g root version o _ Hgo) in Hr.
  eexists _, (Reference (composed env root version dep o) (ident_span fs i) false).
  split; [exists n; rewrite documents_msgs; done|]. split; [|split; [reflexivity|split; [exact Hc|reflexivity]]].
  cbn [to_document d_occs]. rewrite Ho, E2. right. apply nsoccs_elem. eexists a2, _, b2. split; [done|].
  pose proof (use_occ g fs p ti tbl (imports_of h p) (lk env root version g)
    ([] ++ omap (local_def g p ti tbl) a2) (Some par) i o Hplain Hsw Hu) as H. cbn zeta in H.
  assert (index_of (o_pos o) (([] ++ omap (local_def g p ti tbl) a2) ++ option_list (local_def g p ti tbl (Some par, NIdent i))) = None) as Hixn.
  { apply index_of_none. intros Hin. apply Hnl. unfold local_defs. rewrite E2, omap_app, List.map_app.
    cbn in Hin. rewrite List.map_app in Hin. apply elem_of_app in Hin as [Hin|Hin]; apply elem_of_app; [by left|right].
    unfold omap. cbn. destruct (local_def g p ti tbl (Some par, NIdent i)); cbn in *; [|by apply elem_of_nil in Hin].
    apply elem_of_list_singleton in Hin as ->. left. }
  rewrite Hixn in H. apply (H (bare_info (composed env root version dep o))). unfold lk. by rewrite Hr.
Qed.
Lemma use_refers P msgs p f i o dep k m : indexed P msgs → dependency_use P p f i o dep →
  object_of_key (pr_env P) (p_path dep) k o → p_module dep = Some m → refers P msgs p f i (key_symbol (p_path dep) m k).
Proof.
  intros HP Hu Hk Hm. apply (use_refers_as P msgs p f i o dep _ HP Hu); [|apply key_symbol_nonempty].
  intros root version. exact (compose_key (pr_env P) root version dep m (p_path dep) k o Hm Hk).
Qed.

(** *** C56 *)
(** the package of the indexed module: the go command knows no version, directory in the module root *)
Definition main_module (o : index_opts) (p : gpkg) (m : gmodule) : Prop :=
  ordinary o p m ∧ m_replace m = None ∧ has_prefix (m_path m) "." = false ∧ m_path m ≠ "" ∧ m_version m = "" ∧
  abs_or_empty (m_dir m) ∧ abs_or_empty (io_module_root o) ∧ nested (m_dir m) (io_module_root o).
(** a required module, at a version, not replaced *)
Definition required_module (o : index_opts) (p : gpkg) (m : gmodule) : Prop :=
  ordinary o p m ∧ m_replace m = None ∧ has_prefix (m_path m) "." = false ∧ m_path m ≠ "" ∧ m_version m ≠ "".

(** the same module, indexed as the main module with the version v', and required at version v *)
Lemma same_module oA wA rawA mA pA oB wB rawB mB pB :
  main_module oA rawA mA → normalize_package oA wA rawA = Ok pA →
  required_module oB rawB mB → normalize_package oB wB rawB = Ok pB →
  p_path rawB = p_path rawA → m_path mB = m_path mA → normalised (m_version mB) (io_module_version oA) →
  p_path pA = p_path pB ∧ ∃ m m', p_module pA = Some m ∧ p_module pB = Some m' ∧ m_path m = m_path m' ∧ m_version m = m_version m'.
Proof.
  intros (A1 & A2 & A3 & A4 & A5 & A6 & A7 & A8) EA (B1 & B2 & B3 & B4 & B5) EB Hp Hm Hv.
  destruct (C25_unknown_version oA wA rawA mA A1 A2 A3 A4 A5 A6 A7) as (vA & EA' & HvA & _).
  destruct (C25_known_version oB wB rawB mB B1 B2 B3 B4 B5) as (vB & HvB & EB').
  rewrite EA in EA'. injection EA' as ->. rewrite EB in EB'. injection EB' as ->. cbn. split; [done|].
  eexists _, _. split; [done|]. split; [done|]. cbn. split; [done|]. rewrite HvA by by left. by eapply normalised_functional.
Qed.

(** A declaration of the module, and a use of the declared object in a program that requires the
    module at a version that is shown like the version the module was indexed with: the index of
    the module defines, and the index of the program refers to, the same symbol. *)
Theorem C56_cross_repository :
  ∀ A msgsA oA wA rawA mA pA f i k B msgsB oB wB rawB mB dep p2 f2 i2 o,
  indexed A msgsA → indexed B msgsB →
  main_module oA rawA mA → normalize_package oA wA rawA = Ok pA → declaration A pA f i k →
  required_module oB rawB mB → normalize_package oB wB rawB = Ok dep → dependency_use B p2 f2 i2 o dep →
  (** the same package of the same module; o is the declared object, as seen from B *)
  p_path rawB = p_path rawA → m_path mB = m_path mA → normalised (m_version mB) (io_module_version oA) →
  object_of_key (pr_env B) (p_path dep) k o →
  ∃ s, defines A msgsA pA f i s ∧ refers B msgsB p2 f2 i2 s.
Proof.
  intros A msgsA oA wA rawA mA pA f i k B msgsB oB wB rawB mB dep p2 f2 i2 o HA HB MA NA DA MB NB UB Hp Hm Hv Hk.
  destruct (same_module oA wA rawA mA pA oB wB rawB mB dep MA NA MB NB Hp Hm Hv) as (Hpath & m & m' & Em & Em' & E1 & E2).
  destruct (declaration_defined A msgsA pA f i k HA DA) as (m0 & Em0 & Hdef). assert (m0 = m) as -> by congruence.
  exists (key_symbol (p_path pA) m k). split; [done|].
  pose proof (use_refers B msgsB p2 f2 i2 o dep k m' HB UB Hk Em') as Href.
  rewrite <- Hpath in Href. by rewrite (key_symbol_ext _ m m' k).
Qed.
Print Assumptions C56_cross_repository.

(** *** The version *)
(** A dependent names the commit the module was indexed at: by the version of its release tag, with
    or without build metadata such as +incompatible ... *)
Definition release (t v : string) : Prop :=
  semantic_version t ∧ ∃ pre b, semver_text v pre b ∧ v = t +:+ b ∧ ¬ is_pseudo v.
(** ... or by a pseudo-version with the first twelve characters of the commit. *)
Definition pseudo_version_of (commit v : string) : Prop :=
  is_semver v ∧ ∃ c r, commit = c +:+ r ∧ slen c = 12 ∧ pseudo_text v c.

(** The version inferred from git by default is the one dependents are indexed with. *)
Theorem C56_release_version : ∀ before t after rev v,
  Forall no_space (before ++ t :: after) → Forall (λ x, ¬ semantic_version x) before → release t v →
  ∃ v', infer_module_version (succeeds (lines_of (before ++ t :: after))) rev = Ok (Some v') ∧ normalised v v'.
Proof.
  intros before t after rev v H1 H2 [Ht (pre & b & Hs & -> & Hp)]. exists t. split; [by apply C47_version_tag|].
  destruct (decide (b = "")) as [->|Hb]; [|by eapply N_build].
  rewrite app_nil_r in *. constructor; [|done|].
  - intros ->. inversion Hs.
  - intros (pre' & b' & Hs' & Hb'). by destruct (semver_text_unique _ _ _ _ _ Hs Hs') as [_ <-].
Qed.
Theorem C56_commit_version : ∀ commit v, no_space commit → pseudo_version_of commit v →
  ∃ v', infer_module_version (succeeds "") (succeeds (lines_of [commit])) = Ok (Some v') ∧ normalised v v'.
Proof.
  intros commit v Hn [Hs (c & r & -> & Hc & Hp)].
  destruct (C47_commit (c +:+ r) Hn) as (v' & r' & E & Hl & E'); [rewrite slen_app; lia|].
  exists v'. split; [done|]. assert (v' = c) as ->; [|by constructor].
  rewrite <- (str_take_app 12 c r), E' by done. symmetry. by apply str_take_app.
Qed.
(** not so for a module in a subdirectory, whose tags begin with the directory *)
Theorem C56_nested_module_refuted : ∃ tags v', infer_module_version (succeeds (lines_of tags)) (succeeds "") = Ok (Some v') ∧
  tags = ["sub/v1.2.3"] ∧ ¬ normalised "v1.2.3" v'.
Proof.
  exists ["sub/v1.2.3"], "sub/v1.2.3". split; [vm_compute; reflexivity|]. split; [done|]. intros H.
  assert (H' : normalised "v1.2.3" "v1.2.3").
  { apply N_keep; [done| |].
    - rewrite <- is_pseudo_iff. vm_compute. done.
    - rewrite <- has_build_iff. vm_compute. tauto. }
  pose proof (normalised_functional _ _ _ H H'). done.
Qed.
(** nor for a commit with two version tags, when the dependent requires the other *)
Theorem C56_two_tags_refuted : ∃ v', infer_module_version (succeeds (lines_of ["v1.2.3"; "v1.2.4"])) (succeeds "") = Ok (Some v') ∧
  ¬ normalised "v1.2.4" v'.
Proof.
  exists "v1.2.3". split; [vm_compute; reflexivity|]. intros H.
  assert (H' : normalised "v1.2.4" "v1.2.4").
  { apply N_keep; [done| |].
    - rewrite <- is_pseudo_iff. vm_compute. done.
    - rewrite <- has_build_iff. vm_compute. tauto. }
  pose proof (normalised_functional _ _ _ H H'). done.
Qed.
Example C56_version_example :
  release "v2.0.0" "v2.0.0+incompatible" ∧ release "v1.2.3" "v1.2.3" ∧
  pseudo_version_of "fb15b899a751e83c5163316f89bfbde7d9ab23ca" "v0.0.0-20190517173436-fb15b899a751" ∧
  no_space "fb15b899a751e83c5163316f89bfbde7d9ab23ca".
Proof.
  assert (Hnum : ∀ c, is_digit c = true → numeric (String c "")).
  { intros c Hc. split; [split; [done|]; cbn; by rewrite Hc|]. intros (r & E & Hr). injection E as _ <-. done. }
  split; [|split; [|split; [|by split; [|repeat constructor]]]].
  - split; [apply semver_is_valid_spec; vm_compute; reflexivity|]. exists "", "+incompatible". split; [|split; [reflexivity|]].
    + apply (SV_full "2" "0" "0" "" "+incompatible"); try (by apply Hnum); [by left|]. right. exists "incompatible". split; [done|].
      vm_compute. repeat constructor; done.
    + rewrite <- is_pseudo_iff. vm_compute. done.
  - split; [apply semver_is_valid_spec; vm_compute; reflexivity|]. exists "", "". split; [|split; [reflexivity|]].
    + apply (SV_full "1" "2" "3" "" ""); try (by apply Hnum); by left.
    + rewrite <- is_pseudo_iff. vm_compute. done.
  - destruct (proj1 (pseudo_version_rev_spec "v0.0.0-20190517173436-fb15b899a751" "fb15b899a751")) as [H1 H2]; [vm_compute; reflexivity|].
    split; [done|]. exists "fb15b899a751", "e83c5163316f89bfbde7d9ab23ca". done.
Qed.
