(** C74: symbols survive edits. *)
From Coq Require Import Ascii String.
From stdpp Require Import prelude strings gmap sorting.
From Verif Require Import GoStr Scip GoTypes Packages Symbols Document Lookup Pass1 Pass2 Paths
  Loader Index Ast SpecSymbol SpecDecl SpecPrecise SpecLookup SpecOcc SpecIndex
  P_Symbols P_Pass1 P_Link P_Lookup P_Pass2 P_Occ P_Scope P_Index PropDecl PropOcc PropIndex PropAnon PropCross ExDecl ExOcc ExIndex ExCross PropNav PropLocal PropMember PropReach PropPrecise PropUnique.
Open Scope string_scope.
Open Scope list_scope.

(** C74: In two successful runs, over two states P and P' of a project, a package-level declaration of the same entity
    (same package and module, same name, same owner) has the same symbol, whatever else differs: the file and the
    position it is in, its type, value and documentation, the other declarations, files and packages; ... *)
Theorem C74_stable : ∀ P msgs p f i P' msgs' p' f' i' k,
  indexed P msgs → indexed P' msgs' → declaration P p f i k → declaration P' p' f' i' k →
  p_path p' = p_path p → p_module p' = p_module p →
  ∃ s, defines P msgs p f i s ∧ defines P' msgs' p' f' i' s.
Proof.
  intros P msgs p f i P' msgs' p' f' i' k Hx Hx' Hd Hd' Hpath Hmod.
  destruct (declaration_defined P msgs p f i k Hx Hd) as (m & Hm & H).
  destruct (declaration_defined P' msgs' p' f' i' k Hx' Hd') as (m' & Hm' & H').
  assert (m' = m) as -> by congruence. rewrite Hpath in H'. eauto.
Qed.
Print Assumptions C74_stable.

(** ... in the other state, the symbol leads to declarations of that entity only, and ... *)
Theorem C74_followed : ∀ P msgs p f i k P' msgs' p',
  indexed P msgs → indexed P' msgs' → declaration P p f i k →
  clean_modules P' → (∀ q, q ∈ pr_pkgs P' → pkg_grammatical q) →
  p' ∈ pr_pkgs P' → p_path p' = p_path p → p_module p' = p_module p →
  ∃ s, defines P msgs p f i s ∧
  ∀ p2 f2 d o, p2 ∈ pr_pkgs P' → f2 ∈ p_syntax p2 → document_of (pr_pkgs P') (documents msgs') p2 f2 d →
    o ∈ d_occs d → is_def o → oc_symbol o = s →
    p2 = p' ∧ ∃ j, NIdent j ∈ subnodes f2 ∧ oc_range o = ident_span (pr_fs P') j ∧ introduced_at p' k (id_pos j).
Proof.
  intros P msgs p f i k P' msgs' p' Hx Hx' Hd Hcl Hgr Hp' Hpath Hmod.
  destruct (declaration_defined P msgs p f i k Hx Hd) as (m & Hm & H). exists (key_symbol (p_path p) m k). split; [done|].
  intros p2 f2 d o Hp2 Hf2 Hdoc Ho Hdef Hs. rewrite <- Hpath in Hs.
  eapply (C67_definitions_precise P' msgs' p' m k p2 f2 d o); try done. congruence.
Qed.
Print Assumptions C74_followed.

(** ... if the package no longer declares the entity, nothing in the other state is defined under the symbol. *)
Theorem C74_removed : ∀ P msgs p f i k P' msgs' p',
  indexed P msgs → indexed P' msgs' → declaration P p f i k →
  clean_modules P' → (∀ q, q ∈ pr_pkgs P' → pkg_grammatical q) →
  p' ∈ pr_pkgs P' → p_path p' = p_path p → p_module p' = p_module p →
  (∀ pos, ¬ introduced_at p' k pos) →
  ∃ s, defines P msgs p f i s ∧
  ∀ p2 f2 d o, p2 ∈ pr_pkgs P' → f2 ∈ p_syntax p2 → document_of (pr_pkgs P') (documents msgs') p2 f2 d →
    o ∈ d_occs d → is_def o → oc_symbol o ≠ s.
Proof.
  intros P msgs p f i k P' msgs' p' Hx Hx' Hd Hcl Hgr Hp' Hpath Hmod Hno.
  destruct (C74_followed P msgs p f i k P' msgs' p') as (s & H & Hf); [done..|]. exists s. split; [done|].
  intros p2 f2 d o Hp2 Hf2 Hdoc Ho Hdef Hs. destruct (Hf p2 f2 d o) as (_ & j & _ & _ & Hi); [done..|]. by eapply Hno.
Qed.
Print Assumptions C74_removed.

(** C74: A renamed entity, one moved to another package, or one of another module or release of its module has
    another symbol (an absent module name or version and one that is a dot are written alike). *)
Theorem C74_changed : ∀ P msgs p f i k P' msgs' p' f' i' k' m m',
  indexed P msgs → indexed P' msgs' → declaration P p f i k → declaration P' p' f' i' k' →
  p_module p = Some m → p_module p' = Some m' → clean_module m → clean_module m' →
  (p_path p ≠ p_path p' ∨ k ≠ k' ∨ dot_if_empty (m_path m) ≠ dot_if_empty (m_path m') ∨
   dot_if_empty (m_version m) ≠ dot_if_empty (m_version m')) →
  ∃ s s', defines P msgs p f i s ∧ defines P' msgs' p' f' i' s' ∧ s ≠ s'.
Proof.
  intros P msgs p f i k P' msgs' p' f' i' k' m m' Hx Hx' Hd Hd' Hm Hm' Hc Hc' Hne.
  destruct (declaration_defined P msgs p f i k Hx Hd) as (m0 & Hm0 & H).
  destruct (declaration_defined P' msgs' p' f' i' k' Hx' Hd') as (m0' & Hm0' & H').
  assert (m0 = m) as -> by congruence. assert (m0' = m') as -> by congruence.
  eexists _, _. split; [exact H|]. split; [exact H'|]. intros E.
  unfold key_symbol in E. apply format_symbol_inj in E; [|by apply clean_module_symbol..].
  pose proof (f_equal s_descriptors E) as E3. cbn [normal_symbol s_descriptors] in E3.
  pose proof (f_equal (λ s, sp_name (s_package s)) E) as E1. pose proof (f_equal (λ s, sp_version (s_package s)) E) as E2.
  cbn [normal_symbol s_package sp_name sp_version] in E1, E2.
  destruct (key_descriptors_length (p_path p) k) as (d & ds & Ed). destruct (key_descriptors_length (p_path p') k') as (d' & ds' & Ed').
  assert (Ep : p_path p = p_path p') by (rewrite Ed, Ed' in E3; by injection E3). rewrite <- Ep in E3. apply key_descriptors_inj in E3.
  destruct Hne as [?|[?|[?|?]]]; done.
Qed.
Print Assumptions C74_changed.

(** C74: The members of anonymous types in type declarations keep their symbols as long as the names of the declaration
    and the texts of the nested literals stay the same ... *)
Theorem C74_members : ∀ digest P msgs p f ti ds lits texts i fld def P' msgs' p' f' ti' lits' i' fld' def',
  indexed_with digest P msgs → indexed_with digest P' msgs' →
  p ∈ pr_pkgs P → f ∈ p_syntax p → p_info p = Some ti → wf_pkg_pos p → pkg_common_value_types p →
  p' ∈ pr_pkgs P' → f' ∈ p_syntax p' → p_info p' = Some ti' → wf_pkg_pos p' → pkg_common_value_types p' →
  file_member (pr_fs P) f ds lits i fld → Forall2 (λ r t, ti_canon ti r = Some t) lits texts →
  file_member (pr_fs P') f' ds lits' i' fld' → Forall2 (λ r t, ti_canon ti' r = Some t) lits' texts →
  (0 < id_pos i)%Z → id_name i ≠ "_" → no_switch ti i → ti_defs ti (id_ptr i) = Some def → ti_uses ti (id_ptr i) = None →
  (0 < id_pos i')%Z → no_switch ti' i' → ti_defs ti' (id_ptr i') = Some def' → ti_uses ti' (id_ptr i') = None →
  id_name i' = id_name i → p_path p' = p_path p → p_module p' = p_module p → p_path p ≠ "unsafe" →
  ∃ s, defines P msgs p f i s ∧ defines P' msgs' p' f' i' s.
Proof.
  intros digest P msgs p f ti ds lits texts i fld def P' msgs' p' f' ti' lits' i' fld' def' Hx Hx' Hp Hf Hti Hwf Hcv Hp' Hf' Hti' Hwf' Hcv'
    Hm Ht Hm' Ht' Hpos Hnb S Hd Hu Hpos' S' Hd' Hu' Hname Hpath Hmod Hun.
  destruct (C63_anonymous_members_partial digest P msgs p f ti ds lits texts i fld def) as (m & Em & _ & H & _); [done..|].
  destruct (C63_anonymous_members_partial digest P' msgs' p' f' ti' ds lits' texts i' fld' def') as (m' & Em' & _ & H' & _); [done..| |done|done|done| |].
  { by rewrite Hname. } { by rewrite Hpath. }
  assert (m' = m) as -> by congruence. rewrite Hname, Hpath in H'. eauto.
Qed.
Print Assumptions C74_members.
