(** C78: find implementations across repositories. *)
From Coq Require Import Ascii String.
From stdpp Require Import prelude strings gmap sorting.
From Verif Require Import GoStr Scip GoTypes Ast Packages Symbols Document Lookup Pass1 Pass2 Paths Regex Semver SpecSemver P_Semver Loader Index
  SpecSymbol SpecDecl SpecLookup SpecOcc SpecIndex P_Symbols P_Pass1 P_Link P_Lookup P_Pass2 P_Occ P_Index PropIndex PropModule
  Quote Fingerprint SpecTypes P_Finger PropFinger Impls P_Rel P_Ident SpecImpl P_Filter P_Mem P_Extract P_Impl PropImpl PropDet
  PropCross SpecPrecise PropPrecise PropFind.
Open Scope string_scope.
Open Scope list_scope.

(** package pA of the index of module A and package dep, as program B sees it, are the same package of the
    same module, which B requires at a version that is shown like the one A was indexed with (as in C56) *)
Definition same_package (pA dep : gpkg) : Prop :=
  ∃ oA wA rawA mA oB wB rawB mB,
    main_module oA rawA mA ∧ normalize_package oA wA rawA = Ok pA ∧
    required_module oB rawB mB ∧ normalize_package oB wB rawB = Ok dep ∧
    p_path rawB = p_path rawA ∧ m_path mB = m_path mA ∧ normalised (m_version mB) (io_module_version oA).
Lemma same_package_key pA dep k : same_package pA dep →
  p_path pA = p_path dep ∧ ∃ m m', p_module pA = Some m ∧ p_module dep = Some m' ∧ key_symbol (p_path pA) m k = key_symbol (p_path dep) m' k.
Proof.
  intros (oA & wA & rawA & mA & oB & wB & rawB & mB & MA & NA & MB & NB & Hp & Hm & Hv).
  destruct (same_module oA wA rawA mA pA oB wB rawB mB dep MA NA MB NB Hp Hm Hv) as (Hpath & m & m' & Em & Em' & E1 & E2).
  split; [done|]. exists m, m'. split; [done|]. split; [done|]. rewrite <- Hpath. by apply key_symbol_ext.
Qed.

(** A type of program B implements an interface that module A declares: the index of B relates the type
    to the symbol that the index of A defines at the declaration of the interface. *)
Theorem C78_remote_interface : ∀ A msgsA pA fA iA B F msgsB p f i o dep oi,
  indexed A msgsA → declaration A pA fA iA (KeyType (id_name iA)) →
  search_indexed B F msgsB → scopes_ok B F → project_type B F p f i o →
  same_package pA dep → dependency_type B F dep oi → o_name oi = id_name iA → implementation B F p o dep oi →
  ∃ s t info, defines A msgsA pA fA iA s ∧ defines B msgsB p f i t ∧ described_by B msgsB p f t info ∧
    implementation_relationship s ∈ i_relationships info.
Proof.
  intros A msgsA pA fA iA B F msgsB p f i o dep oi HA DA HB Hsk Hpt Hsame Hdep Hname Himp.
  destruct (same_package_key pA dep (KeyType (id_name iA)) Hsame) as (Hpath & m & m' & Em & Em' & Ek).
  destruct (declaration_defined A msgsA pA fA iA _ HA DA) as (m0 & Em0 & Hdef). assert (m0 = m) as -> by congruence.
  destruct (C77_implementations B F msgsB p f i o HB Hsk Hpt) as (mb & info & Hmb & Hby & Hr).
  destruct (declaration_defined B msgsB p f i _ (search_indexed_indexed _ _ _ HB) (pt_decl _ _ _ _ _ _ Hpt)) as (mb' & Hmb' & Hdefb).
  assert (mb' = mb) as -> by congruence.
  exists (key_symbol (p_path pA) m (KeyType (id_name iA))), (key_symbol (p_path p) mb (KeyType (id_name i))), info.
  split; [done|]. split; [done|]. split; [done|]. apply Hr. rewrite Ek, <- Hname.
  exists dep, oi, (key_symbol (p_path dep) m' (KeyType (o_name oi))). split; [done|]. split; [by apply st_dependency|done].
Qed.
Print Assumptions C78_remote_interface.

(** A type that module A declares implements an interface of program B: the index of B has an external
    symbol, the one that the index of A defines at the declaration of the type, which is related to the
    symbol that the index of B defines at the declaration of the interface. *)
Theorem C78_remote_type : ∀ A msgsA pA fA iA B F msgsB p f i o dep od,
  indexed A msgsA → declaration A pA fA iA (KeyType (id_name iA)) →
  search_indexed B F msgsB → scopes_ok B F → project_type B F p f i o →
  same_package pA dep → dependency_type B F dep od → o_name od = id_name iA → implementation B F dep od p o →
  ∃ s t info, defines A msgsA pA fA iA s ∧ defines B msgsB p f i t ∧ info ∈ externals msgsB ∧ i_symbol info = s ∧
    implementation_relationship t ∈ i_relationships info.
Proof.
  intros A msgsA pA fA iA B F msgsB p f i o dep od HA DA HB Hsk Hpt Hsame Hdep Hname Himp.
  destruct (same_package_key pA dep (KeyType (id_name iA)) Hsame) as (Hpath & m & m' & Em & Em' & Ek).
  destruct (declaration_defined A msgsA pA fA iA _ HA DA) as (m0 & Em0 & Hdef). assert (m0 = m) as -> by congruence.
  destruct (declaration_defined B msgsB p f i _ (search_indexed_indexed _ _ _ HB) (pt_decl _ _ _ _ _ _ Hpt)) as (mb & Hmb & Hdefb).
  destruct (C77_external B F msgsB HB Hsk) as (_ & Hall & Hex). destruct (Hex dep od m' p f i o Hdep Em' Hpt Himp) as (info & Hin & Hs).
  exists (key_symbol (p_path pA) m (KeyType (id_name iA))), (key_symbol (p_path p) mb (KeyType (id_name i))), info.
  split; [done|]. split; [done|]. split; [done|]. split; [by rewrite Ek, <- Hname|].
  destruct (Hall info Hin) as (q & oq & mq & Hq & Hmq & Hs' & _ & Hr). rewrite Hs in Hs'.
  assert (Hcl : ∀ p o m, dependency_type B F p o → p_module p = Some m → clean_module m).
  { intros p1 o1 m1 [(q1 & A1 & A2 & _) _ _ _ _ _ _ _] Hm1. by eapply (sk_modules _ _ Hsk). }
  apply key_symbol_path in Hs' as [Hpq Hkq]; [|exact (Hcl _ _ _ Hdep Em')|exact (Hcl _ _ _ Hq Hmq)]. injection Hkq as Hkq.
  assert (q = dep) as ->.
  { destruct (dt_pkg _ _ _ _ Hq) as (x & A1 & A2 & _), (dt_pkg _ _ _ _ Hdep) as (y & B1 & B2 & _). congruence. }
  assert (oq = od) as -> by (apply (sk_scope_once _ _ Hsk dep _ _ Hq Hdep); congruence).
  apply Hr. by exists p, f, i, o, mb.
Qed.
Print Assumptions C78_remote_type.

(** ** Methods *)
(** what the search relates methods to never is the symbol of an interface method of a dependency *)
Lemma resolved_not_member P F digest g0 root version o info path m T n q :
  indexable (pr_objs P) (pr_fs P) (pr_heap P) (pr_all P) (pr_proj P) (pr_pkgs P) → scopes_ok P F →
  tables_ok digest (pr_env P) (pr_fs P) (pr_heap P) (pr_all P) (pr_pkgs P) g0 →
  go_object (pr_objs P) o → (∃ r, o_kind (origin o) = OFunc r) → clean_module m →
  pr_all P !! path = Some q → pr_proj P !! path = None →
  resolves (pr_env P) root version g0 o (Found info) → i_symbol info ≠ key_symbol path m (KeyMember T n).
Proof.
  intros Hix Hsk Htab Hgo (r & Hk) Hc Hall Hproj Hres Hs.
  assert (Hrec : ∀ id pos, recorded g0 id pos info → False).
  { intros id pos (p & tbl & Hg & Hl). destruct (decide (id ∈ map p_path (pr_pkgs P))) as [Hin|Hout].
    - apply elem_of_list_fmap in Hin as (p' & -> & Hp'). destruct (tk_proj _ _ _ _ _ _ _ Htab p' Hp') as (tbl0 & Hg0 & _).
      assert (p' = p) as -> by congruence.
      destruct (pass1_entry digest (pr_env P) (pr_fs P) (pr_heap P) (pr_all P) (pr_pkgs P) g0 g0 p tbl pos info Htab (same_tables_refl _) Hp' Hg Hl) as (m' & first & rest & Hm & _ & Hcase).
      destruct (module_of P F Hix Hsk p Hp') as (m2 & Hm2 & Hc2). assert (m2 = m') as -> by congruence.
      destruct Hcase as [(ds & _ & E)|(_ & E & _)].
      + rewrite Hs in E. unfold key_symbol in E. apply format_symbol_inj in E; [|by apply clean_module_symbol..].
        pose proof (f_equal s_descriptors E) as E'. cbn [s_descriptors] in E'. unfold key_descriptors in E'. injection E' as E' _.
        apply (in_project P Hix) in Hp' as (q' & Hq' & _). congruence.
      + rewrite Hs in E. symmetry in E. by apply package_not_key in E.
    - rewrite (tk_deps _ _ _ _ _ _ _ Htab id p tbl Hout Hg), lookup_empty in Hl. done. }
  inversion Hres as [| | |tp i H1 H2 H3 H4 H5|tp i H1 H2 H3 H4 H5 H6|tp i H1 H2 H3 H4 H5 H6 H7|tp p t H1 H2 H3 H4 H5 H6 H7 H8 H9|]; subst; try by eapply Hrec.
  cbn [bare_info i_symbol] in Hs.
  unfold composed, compose in Hs. rewrite H3 in Hs. cbn [c_memo new_composer assoc_nat] in Hs.
  destruct (o_pkg (origin o)) as [tp'|] eqn:Etp; [|].
  2: { pose proof (go_origin _ _ Hgo) as Hor. rewrite H3, Etp in Hor. discriminate Hor. }
  destruct (describe (pr_env P) tp' (origin o)) as [|d ds] eqn:Ed.
  { cbn in Hs. symmetry in Hs. by apply format_symbol_nonempty in Hs. }
  cbn [fst] in Hs. unfold pack in Hs.
  assert (Hmod : ∃ m, p_module p = Some m ∧ clean_module m).
  { destruct (decide (tp_path tp ∈ map p_path (pr_pkgs P))) as [Hin|Hout].
    - apply elem_of_list_fmap in Hin as (p' & E & Hp'). destruct (tk_proj _ _ _ _ _ _ _ Htab p' Hp') as (t1 & Hg1 & _).
      assert (p' = p) as -> by congruence. by apply (module_of P F Hix Hsk).
    - destruct (pr_all P !! tp_path tp) as [q'|] eqn:Eq.
      + destruct (ix_loaded _ _ _ _ _ _ Hix) as (Hka & _). destruct (Hka _ _ Eq) as (p'' & m' & Hh & _ & Hm).
        assert (p'' = p) as -> by (pose proof (tk_all _ _ _ _ _ _ _ Htab _ _ _ Eq Hh Hout); congruence). exists m'. split; [done|]. by eapply (sk_modules _ _ Hsk).
      + by rewrite (tk_none _ _ _ _ _ _ _ Htab _ Eq Hout) in H8. }
  destruct Hmod as (m' & Hm & Hc'). rewrite Hm in Hs. unfold key_symbol in Hs. apply format_symbol_inj in Hs; [|by apply clean_module_symbol..].
  assert (E : d :: ds = key_descriptors path (KeyMember T n)) by exact (f_equal s_descriptors Hs).
  rewrite <- Ed in E. unfold describe in E. rewrite Hk in E. destruct r as [[rt|]|]; [|discriminate E|discriminate E].
  destruct (String.eqb _ _); discriminate E.
Qed.

(** Methods are not related across repositories: whatever methods of interfaces of dependencies a method of program B
    implements, none of its relationships is to the symbol that the index of A defines at the
    declaration of an interface method. *)
Theorem C78_remote_method_refuted : ∀ A msgsA pA fA iA T n B F msgsB p f i k o dep,
  indexed A msgsA → declaration A pA fA iA (KeyMember T n) →
  search_indexed B F msgsB → scopes_ok B F → project_method B F p f i k o →
  same_package pA dep → (∃ q, pr_all B !! p_path dep = Some q ∧ pr_heap B !! q = Some dep) → pr_proj B !! p_path dep = None →
  (∀ t m, m ∈ tf_mset F t → ∃ r, o_kind (origin m) = OFunc r) →
  ∃ s t info, defines A msgsA pA fA iA s ∧ defines B msgsB p f i t ∧ described_by B msgsB p f t info ∧
    ∀ r, r ∈ i_relationships info → r_symbol r ≠ s.
Proof.
  intros A msgsA pA fA iA T n B F msgsB p f i k o dep HA DA HB Hsk Hpm Hsame (q & Hq & Hh) Hproj Hfun.
  destruct (same_package_key pA dep (KeyMember T n) Hsame) as (Hpath & m & m' & Em & Em' & Ek).
  destruct (declaration_defined A msgsA pA fA iA _ HA DA) as (m0 & Em0 & Hdef). assert (m0 = m) as -> by congruence.
  pose proof HB as (_ & _ & _ & _ & _ & _ & _ & _ & _ & _ & Hix & Han & _ & _).
  destruct (method_described B F msgsB HB Hsk) as (digest & root & version & g0 & Htab & Hdesc & _).
  destruct (Hdesc _ _ _ _ (pm_decl _ _ _ _ _ _ _ Hpm)) as (mb & info & Hmb & Hby & (_ & _ & Hr)).
  destruct (declaration_defined B msgsB p f i _ (search_indexed_indexed _ _ _ HB) (pm_decl _ _ _ _ _ _ _ Hpm)) as (mb' & Hmb' & Hdefb).
  assert (mb' = mb) as -> by congruence.
  exists (key_symbol (p_path pA) m (KeyMember T n)), (key_symbol (p_path p) mb k), info. split; [done|]. split; [done|]. split; [done|].
  intros r Hin Hs. apply Hr in Hin as [Hin _].
  apply (expected_at_method B F digest Hix Han Hsk root version g0 Htab p f i k o _ Hpm) in Hin
    as (pt & ot & st & pi & oti & sti & oM & oI & info' & _ & _ & _ & (_ & _ & Hm & _) & _ & _ & _ & Hres & Es).
  rewrite <- Es, Ek in Hs. revert Hs.
  assert (HoI : ∃ t, oI ∈ tf_mset F t) by (destruct Hm as [Hm|[_ Hm]]; eauto). destruct HoI as [t Ht].
  eapply (resolved_not_member B F digest g0 root version); [done|done|done|by eapply (ms_object _ _ _ (an_methods _ _ _ _ _ _ _ Han))|by eapply Hfun| |done|done|done].
  by eapply (sk_modules _ _ Hsk).
Qed.
Print Assumptions C78_remote_method_refuted.
