(** C81: indexing some of the packages of a project gives the documents that indexing all of them gives. *)
From Coq Require Import Ascii String.
From stdpp Require Import prelude strings gmap sorting.
From Verif Require Import GoStr Scip GoTypes Ast Packages Symbols Document Lookup Pass1 Pass2 Paths Loader Index
  SpecSymbol SpecDecl SpecLookup SpecOcc SpecIndex P_Symbols P_Pass1 P_Link P_Lookup P_Pass2 P_Occ P_Index PropDecl PropOcc PropIndex PropCross PropSkip.
Open Scope string_scope.
Open Scope list_scope.

(** *** Specification *)
(** what go/types says about a package, with other answers for uses of identifiers *)
Definition with_uses (ti : tinfo) (uses : nat → option obj) : tinfo :=
  TInfo (ti_defs ti) uses (ti_pkgname_of ti) (ti_case_objs ti) (ti_canon ti) (ti_sig ti).
(** p and p' are one package in two runs: the same files, with the same definitions *)
Record same_source (p p' : gpkg) : Prop := SameSource {
  ss_path : p_path p' = p_path p; ss_name : p_name p' = p_name p; ss_module : p_module p' = p_module p; ss_syntax : p_syntax p' = p_syntax p;
  ss_info : match p_info p, p_info p' with Some ti, Some ti' => ti' = with_uses ti (ti_uses ti') | None, None => True | _, _ => False end }.

(** Q is part of P: packages that are loaded for Q are loaded for P, with the same modules, and the packages that Q
    indexes are indexed by P.  Packages that P indexes can be dependencies in Q, known from export data. *)
Record part_of (Q P : project) : Prop := PartOf {
  pt_env : pr_env Q = pr_env P; pt_fs : pr_fs Q = pr_fs P;
  pt_all : ∀ k q p, pr_all Q !! k = Some q → pr_heap Q !! q = Some p →
    ∃ q' p', pr_all P !! k = Some q' ∧ pr_heap P !! q' = Some p' ∧ p_module p' = p_module p;
  pt_pkgs : ∀ p, p ∈ pr_pkgs Q → ∃ p', p' ∈ pr_pkgs P ∧ same_source p p' }.

(** P and Q index the same variants of the package with path k: the package, its test binary, and the package for its test *)
Definition same_variants (Q P : project) (k : string) : Prop :=
  (is_Some (pr_all P !! k) → is_Some (pr_all Q !! k)) ∧
  ∀ c, c ∈ [k; k +:+ ".test"; k +:+ " [" +:+ k +:+ ".test]"] → pr_proj Q !! c = None → pr_proj P !! c = None.
(** an identifier of package p refers to o in Q and to o' in P: to the same object, or to a package-level declaration k of
    another package, which P reads in its source and Q in the export data *)
Inductive same_use (Q P : project) (p : gpkg) : obj → obj → Prop :=
| su_package o path : o_kind o = OPkgName path → is_Some (pr_all Q !! path) → same_use Q P p o o
| su_universe o : o_pkg o = None → (∀ path, o_kind o ≠ OPkgName path) → same_use Q P p o o
| su_same o tp : o_pkg o = Some tp → (∀ path, o_kind o ≠ OPkgName path) → same_variants Q P (tp_path tp) → same_use Q P p o o
| su_declared o o' k p' f i dep tp tp' q :
    declaration P p' f i k → o_pos o' = id_pos i → o_pkg o' = Some tp' → tp_path tp' = p_path p' →
    o_pkg o = Some tp → tp_path tp = p_path p' → p_path p' ≠ "unsafe" →
    pr_all Q !! p_path p' = Some q → pr_heap Q !! q = Some dep → p_module dep = p_module p' →
    (∀ c, c ∈ [p_path p'; p_path p' +:+ ".test"; p_path p' +:+ " [" +:+ p_path p' +:+ ".test]"] → pr_proj Q !! c = None) →
    object_of_key (pr_env Q) (p_path p') k o →
    (∀ x, x = o ∨ x = o' → o_kind x ≠ OLabel ∧ o_kind x ≠ ONil ∧ ∀ path, o_kind x ≠ OPkgName path) →
    (∀ f' i', f' ∈ p_syntax p → NIdent i' ∈ subnodes f' → id_pos i' ≠ o_pos o) →
    same_use Q P p o o'.
Definition agree {A} (R : A → A → Prop) (x y : option A) : Prop :=
  match x, y with Some a, Some b => R a b | None, None => True | _, _ => False end.
(** the packages that p imports are loaded in both *)
Definition same_imports (Q P : project) (p p' : gpkg) : Prop :=
  ∀ path, agree (λ a b, p_path b = p_path a ∧ is_Some (pr_all Q !! p_path a)) (imports_of (pr_heap Q) p path) (imports_of (pr_heap P) p' path).
(** identifiers that name packages do so in both *)
Definition same_package_names (Q P : project) (ti ti' : tinfo) : Prop :=
  ∀ n, agree (λ o o', (o' = o ∧ ∃ path, o_kind o = OPkgName path ∧ is_Some (pr_all Q !! path)) ∨
    ((∀ path, o_kind o ≠ OPkgName path) ∧ ∀ path, o_kind o' ≠ OPkgName path)) (ti_uses ti n) (ti_uses ti' n).

(** the same occurrence; in P a reference may be marked as deprecated that is not in Q *)
Definition same_occurrence (o o' : occurrence) : Prop :=
  o' = o ∨ (oc_roles o = role_read_access ∧ oc_diags o = [] ∧
    o' = Occ (oc_range o) (oc_symbol o) (oc_roles o) (oc_enclosing o) (oc_diags o')).
(** the same index run on two projects *)
Definition indexed_as (digest : string → string) (objstr : obj → string) (root : string) (P : project) (msgs : list message) : Prop :=
  ∃ mo version impl impl_error po ao po2 skip meta w,
    indexable (pr_objs P) (pr_fs P) (pr_heap P) (pr_all P) (pr_proj P) (pr_pkgs P) ∧ orders_ok mo ∧
    key_order (pr_proj P) po ∧ key_order (pr_all P) ao ∧ key_order (pr_proj P) po2 ∧
    impl_contract (pr_env P) (pr_objs P) root version (pr_heap P) (pr_all P) (pr_proj P) impl ∧
    Index.index digest (pr_env P) (pr_fs P) (pr_heap P) objstr mo w impl impl_error root version skip meta
      (LoadOk (pr_all P) (pr_proj P)) po ao po2 = (msgs, Returned None).

(** *** Proofs *)
Lemma composed_ext env r v r' v' p p' m o : p_module p = Some m → p_module p' = Some m → composed env r v p o = composed env r' v' p' o.
Proof.
  intros E E'. unfold composed, compose, new_composer. cbn [c_memo assoc_nat]. destruct (o_pkg o); [|done]. destruct (o_pkg (origin o)) as [tp|]; [|done].
  destruct (describe env tp (origin o)); [done|]. cbn. by rewrite E, E'.
Qed.
Lemma table_source digest env fs p p' t t' : same_source p p' → pass1_table digest env fs p t → pass1_table digest env fs p' t' → t' = t.
Proof.
  intros [H1 H2 H3 H4 H5]. destruct p as [ptr path name m imps syn ty info], p' as [ptr' path' name' m' imps' syn' ty' info']. cbn in *. subst path' name' m' syn'.
  unfold pass1_table. cbn [p_syntax p_info]. destruct syn as [|first rest]; [congruence|]. destruct info as [ti|], info' as [ti'|]; try done.
  intros (a & mm & E & Em & ->) (b & mm' & E' & Em' & ->). cbn [p_module] in *. assert (mm' = mm) as -> by congruence.
  assert (b = a) as ->; [|done]. rewrite H5 in E'.
  assert (E2 : visit_package_table digest ti fs env (GPkg ptr path name m imps (first :: rest) ty (Some ti)) = Ok b) by exact E'.
  rewrite E in E2. by injection E2.
Qed.

Section Part.
Context (digest : string → string) (Q P : project) (Hpart : part_of Q P) (root version version' : string).
Context (HixQ : indexable (pr_objs Q) (pr_fs Q) (pr_heap Q) (pr_all Q) (pr_proj Q) (pr_pkgs Q)).
Context (HixP : indexable (pr_objs P) (pr_fs P) (pr_heap P) (pr_all P) (pr_proj P) (pr_pkgs P)).
Context (g0 g g0' g' : global).
Context (HtQ : tables_ok digest (pr_env Q) (pr_fs Q) (pr_heap Q) (pr_all Q) (pr_pkgs Q) g0) (HsQ : same_tables g0 g).
Context (HtP : tables_ok digest (pr_env P) (pr_fs P) (pr_heap P) (pr_all P) (pr_pkgs P) g0') (HsP : same_tables g0' g').

Lemma part_syms k : is_Some (pr_all Q !! k) → g_pkgsyms g' !! k = g_pkgsyms g !! k ∧ is_Some (g_pkgsyms g !! k).
Proof.
  intros [q Hq]. destruct (ix_loaded _ _ _ _ _ _ HixQ) as (Hka & _). destruct (Hka _ _ Hq) as (p & m & Hh & _ & Hm).
  destruct (pt_all _ _ Hpart _ _ _ Hq Hh) as (q' & p' & Hq' & Hh' & Em).
  rewrite <-(proj1 HsQ), <-(proj1 HsP), (tk_syms _ _ _ _ _ _ _ HtQ _ _ _ _ Hq Hh Hm).
  rewrite (tk_syms _ _ _ _ _ _ _ HtP _ _ _ _ Hq' Hh' ltac:(by rewrite Em)). eauto.
Qed.
(** the table of a package of Q is its table in P *)
Lemma part_table p : p ∈ pr_pkgs Q → ∃ p' t t', p' ∈ pr_pkgs P ∧ same_source p p' ∧
  g_symbols g !! p_path p = Some (p, t) ∧ g_symbols g' !! p_path p = Some (p', t') ∧ ∀ pos, agree same_info (t !! pos) (t' !! pos).
Proof.
  intros Hp. destruct (pt_pkgs _ _ Hpart p Hp) as (p' & Hp' & Hss).
  destruct (tk_proj _ _ _ _ _ _ _ HtQ p Hp) as (t0 & E0 & H0). destruct (tk_proj _ _ _ _ _ _ _ HtP p' Hp') as (t0' & E0' & H0').
  rewrite <-(pt_env _ _ Hpart), <-(pt_fs _ _ Hpart) in H0'. rewrite (table_source _ _ _ _ _ _ _ Hss H0 H0') in E0'. rewrite (ss_path _ _ Hss) in E0'.
  destruct (same_tables_lookup _ _ _ _ _ HsQ E0) as (t & E & H). destruct (same_tables_lookup _ _ _ _ _ HsP E0') as (t' & E' & H').
  exists p', t, t'. split_and!; try done. intros pos. specialize (H pos). specialize (H' pos). unfold agree.
  destruct (t0 !! pos) as [i0|], (t !! pos) as [i|], (t' !! pos) as [i'|]; try done.
  destruct H as (?&?&?&?&?&?), H' as (?&?&?&?&?&?). split_and!; congruence.
Qed.
Lemma in_pkgs_Q k : k ∈ map p_path (pr_pkgs Q) ↔ is_Some (pr_proj Q !! k).
Proof. destruct (ix_order _ _ _ _ _ _ HixQ) as [[Hl _] _]. apply Hl. Qed.
Lemma in_pkgs_P k : k ∈ map p_path (pr_pkgs P) ↔ is_Some (pr_proj P !! k).
Proof. destruct (ix_order _ _ _ _ _ _ HixP) as [[Hl _] _]. apply Hl. Qed.
Lemma part_unrec_Q k : pr_proj Q !! k = None → ∀ pos, unrecorded g k pos.
Proof. eapply not_project_unrecorded; [apply (ix_order _ _ _ _ _ _ HixQ)|exact HtQ|exact HsQ]. Qed.
Lemma part_unrec_P k : pr_proj P !! k = None → ∀ pos, unrecorded g' k pos.
Proof. eapply not_project_unrecorded; [apply (ix_order _ _ _ _ _ _ HixP)|exact HtP|exact HsP]. Qed.

Lemma part_recorded c pos : (pr_proj Q !! c = None → pr_proj P !! c = None) →
  (∃ i i', recorded g c pos i ∧ recorded g' c pos i' ∧ same_info i i') ∨ unrecorded g c pos ∧ unrecorded g' c pos.
Proof.
  intros Hv. destruct (pr_proj Q !! c) as [q|] eqn:Eq.
  - assert (c ∈ map p_path (pr_pkgs Q)) as Hin by (by apply in_pkgs_Q). apply elem_of_list_fmap in Hin as (p & -> & Hp).
    destruct (part_table p Hp) as (p' & t & t' & _ & _ & E & E' & H). specialize (H pos). unfold agree in H.
    destruct (t !! pos) as [i|] eqn:Ei, (t' !! pos) as [i'|] eqn:Ei'; try done.
    + left. exists i, i'. split; [by exists p, t|]. split; [by exists p', t'|done].
    + right. split; intros j (pp & tt & E1 & E2); congruence.
  - right. split; [by apply part_unrec_Q|by apply part_unrec_P, Hv].
Qed.
Lemma loaded_symbols (X : project) (gx0 gx : global) k : indexable (pr_objs X) (pr_fs X) (pr_heap X) (pr_all X) (pr_proj X) (pr_pkgs X) →
  tables_ok digest (pr_env X) (pr_fs X) (pr_heap X) (pr_all X) (pr_pkgs X) gx0 → same_tables gx0 gx →
  match pr_all X !! k with
  | Some q => ∃ p p1 m t, pr_heap X !! q = Some p ∧ p_module p = Some m ∧ g_symbols gx !! k = Some (p1, t) ∧ p_module p1 = Some m
  | None => g_symbols gx !! k = None end.
Proof.
  intros Hix Ht Hs. destruct (ix_loaded _ _ _ _ _ _ Hix) as (Hka & Hkp & Hsm). destruct (ix_order _ _ _ _ _ _ Hix) as [[Hl _] Hin].
  assert (Hl' : ∀ x, x ∈ map p_path (pr_pkgs X) ↔ is_Some (pr_proj X !! x)) by done.
  destruct (decide (k ∈ map p_path (pr_pkgs X))) as [Hk|Hk].
  - apply elem_of_list_fmap in Hk as (p & -> & Hp). destruct (Hin p Hp) as (q & Hq & Hh). destruct (Hsm _ _ _ Hq Hh) as (q' & p' & Hq' & Hh' & Em).
    rewrite Hq'. destruct (Hka _ _ Hq') as (p2 & m & Hh2 & _ & Hm). assert (p2 = p') as -> by congruence.
    destruct (tk_proj _ _ _ _ _ _ _ Ht p Hp) as (t & E & _). destruct (same_tables_lookup _ _ _ _ _ Hs E) as (t' & E' & _).
    exists p', p, m, t'. split_and!; try done. congruence.
  - destruct (pr_all X !! k) as [q|] eqn:Eq.
    + destruct (Hka _ _ Eq) as (p & m & Hh & _ & Hm). pose proof (tk_all _ _ _ _ _ _ _ Ht _ _ _ Eq Hh Hk) as E.
      destruct (same_tables_lookup _ _ _ _ _ Hs E) as (t' & E' & _). by exists p, p, m, t'.
    + pose proof (tk_none _ _ _ _ _ _ _ Ht _ Eq Hk) as E. destruct (g_symbols gx !! k) as [[p t]|] eqn:Ex; [|done].
      destruct (same_tables_lookup _ _ _ _ _ (same_tables_sym _ _ Hs) Ex) as (t' & E' & _). congruence.
Qed.
Lemma part_symbols k : (is_Some (pr_all P !! k) → is_Some (pr_all Q !! k)) →
  match g_symbols g !! k, g_symbols g' !! k with
  | Some (p, _), Some (p', _) => ∃ m, p_module p = Some m ∧ p_module p' = Some m
  | None, None => True | _, _ => False end.
Proof.
  intros Hl. pose proof (loaded_symbols Q g0 g k HixQ HtQ HsQ) as HQ. pose proof (loaded_symbols P g0' g' k HixP HtP HsP) as HP.
  destruct (pr_all Q !! k) as [q|] eqn:Eq.
  - destruct HQ as (p & p1 & m & t & Hh & Hm & E & Em). destruct (pt_all _ _ Hpart _ _ _ Eq Hh) as (q' & p' & Hq' & Hh' & Em').
    rewrite Hq' in HP. destruct HP as (p2 & p3 & m' & t' & Hh2 & Hm2 & E' & Em3). rewrite E, E'. exists m. split; [done|]. congruence.
  - destruct (pr_all P !! k) as [q'|] eqn:Eq'; [by destruct (Hl ltac:(eauto))|]. by rewrite HQ, HP.
Qed.
Lemma part_resolves o r : (∀ tp, o_pkg o = Some tp → same_variants Q P (tp_path tp)) →
  resolves (pr_env Q) root version g o r → ∃ r', resolves (pr_env P) root version' g' o r' ∧ same_result r r'.
Proof.
  intros Hv Hr. rewrite <-(pt_env _ _ Hpart).
  assert (Hrec : ∀ tp c, o_pkg o = Some tp → c ∈ [tp_path tp; tp_path tp +:+ ".test"; tp_path tp +:+ " [" +:+ tp_path tp +:+ ".test]"] →
    (∃ i i', recorded g c (o_pos o) i ∧ recorded g' c (o_pos o) i' ∧ same_info i i') ∨ unrecorded g c (o_pos o) ∧ unrecorded g' c (o_pos o)).
  { intros tp c Htp Hc. apply part_recorded. by apply (Hv tp Htp). }
  assert (HR : ∀ tp c i, o_pkg o = Some tp → c ∈ [tp_path tp; tp_path tp +:+ ".test"; tp_path tp +:+ " [" +:+ tp_path tp +:+ ".test]"] →
    recorded g c (o_pos o) i → ∃ i', recorded g' c (o_pos o) i' ∧ same_info i i').
  { intros tp c i Htp Hc Hi. destruct (Hrec tp c Htp Hc) as [(a & b & Ha & Hb & Hs)|[Hu _]]; [|by destruct (Hu i)].
    exists b. split; [done|]. destruct Hi as (? & ? & E1 & E2), Ha as (? & ? & E3 & E4). assert (i = a) as -> by congruence. done. }
  assert (HU : ∀ tp c, o_pkg o = Some tp → c ∈ [tp_path tp; tp_path tp +:+ ".test"; tp_path tp +:+ " [" +:+ tp_path tp +:+ ".test]"] →
    unrecorded g c (o_pos o) → unrecorded g' c (o_pos o)).
  { intros tp c Htp Hc Hu. destruct (Hrec tp c Htp Hc) as [(a & b & Ha & _)|[_ Hu']]; [by destruct (Hu a)|done]. }
  assert (M1 : ∀ a b c : string, a ∈ [a; b; c]) by (intros; left). assert (M2 : ∀ a b c : string, b ∈ [a; b; c]) by (intros; right; left).
  assert (M3 : ∀ a b c : string, c ∈ [a; b; c]) by (intros; right; right; left).
  destruct Hr as [H|H|tp H1 H2|tp i H1 H2 H3 H4 H5|tp i H1 H2 H3 H4 H5 H6|tp i H1 H2 H3 H4 H5 H6 H7|tp p t H1 H2 H3 H4 H5 H6 H7 H8 H9|tp H1 H2 H3 H4 H5 H6 H7 H8].
  - exists Skip. split; [by apply rs_label|done].
  - exists Skip. split; [by apply rs_universe|done].
  - exists Skip. split; [by eapply rs_unsafe|done].
  - destruct (HR tp _ i H3 (M1 _ _ _) H5) as (i' & Hi' & Hs). exists (Found i'). split; [by eapply rs_own|done].
  - destruct (HR tp _ i H3 (M2 _ _ _) H6) as (i' & Hi' & Hs). exists (Found i'). split; [|done]. eapply rs_test; try done. by eapply (HU tp); [..|exact H5].
  - destruct (HR tp _ i H3 (M3 _ _ _) H7) as (i' & Hi' & Hs). exists (Found i'). split; [|done]. eapply rs_variant; try done; [by eapply (HU tp); [..|exact H5]|by eapply (HU tp); [..|exact H6]].
  - pose proof (part_symbols (tp_path tp) (proj1 (Hv tp H3))) as Hs. rewrite H8 in Hs. destruct (g_symbols g' !! tp_path tp) as [[p' t']|] eqn:E'; [|done].
    destruct Hs as (m & Em & Em'). rewrite (composed_ext _ root version root version' p p' m o Em Em') in H9 |- *.
    eexists. split; [eapply rs_composed; try done; [by eapply (HU tp); [..|exact H5]|by eapply (HU tp); [..|exact H6]|by eapply (HU tp); [..|exact H7]]|by split_and!].
  - exists LookupError. split; [|done]. eapply rs_error; try done; [by eapply (HU tp); [..|exact H5]|by eapply (HU tp); [..|exact H6]|by eapply (HU tp); [..|exact H7]|].
    intros p' t' E'. pose proof (part_symbols (tp_path tp) (proj1 (Hv tp H3))) as Hs. rewrite E' in Hs. destruct (g_symbols g !! tp_path tp) as [[p t]|] eqn:E; [|done].
    destruct Hs as (m & Em & Em'). rewrite <-(composed_ext _ root version root version' p p' m o Em Em'). by eapply H8.
Qed.
Lemma part_lk o : go_object (pr_objs Q) o → go_object (pr_objs P) o → (∀ tp, o_pkg o = Some tp → same_variants Q P (tp_path tp)) →
  same_result (lk (pr_env Q) root version g o) (lk (pr_env P) root version' g' o).
Proof.
  intros Ho Ho' Hv. destruct (answer_history (pr_env Q) (pr_objs Q) g root version [] o) as (k & r & _ & _ & E); [constructor|done|].
  assert (R : resolves (pr_env Q) root version g o (lk (pr_env Q) root version g o)).
  { apply (answer_resolves (pr_env Q) (pr_objs Q) g root version o _ Ho). unfold lk. by rewrite E. }
  destruct (part_resolves _ _ Hv R) as (r' & R' & Hs). apply (answer_resolves (pr_env P) (pr_objs P) g' root version' o _ Ho') in R'.
  unfold lk at 2. by rewrite R'.
Qed.

(** one file of one package *)
Context (p p' : gpkg) (Hp : p ∈ pr_pkgs Q) (Hp' : p' ∈ pr_pkgs P) (Hss : same_source p p') (ti ti' : tinfo) (Hti : p_info p = Some ti) (Hti' : p_info p' = Some ti').
Context (f : node) (Hf : f ∈ p_syntax p) (tbl tbl' : ptable) (Hg : g_symbols g !! p_path p = Some (p, tbl)) (Hg' : g_symbols g' !! p_path p' = Some (p', tbl')).
Context (Hnames : same_package_names Q P ti ti') (Himp : same_imports Q P p p').

Lemma pf_info : ti' = with_uses ti (ti_uses ti').
Proof. pose proof (ss_info _ _ Hss) as H. by rewrite Hti, Hti' in H. Qed.
Lemma pf_defs n : ti_defs ti' n = ti_defs ti n. Proof. by rewrite pf_info. Qed.
Lemma pf_case : ti_case_objs ti' = ti_case_objs ti. Proof. by rewrite pf_info. Qed.
Lemma pf_pkgname n : ti_pkgname_of ti' n = ti_pkgname_of ti n. Proof. by rewrite pf_info. Qed.
Lemma pf_table pos : agree same_info (tbl !! pos) (tbl' !! pos).
Proof.
  destruct (part_table p Hp) as (p2 & t & t' & _ & _ & E & E' & H). rewrite Hg in E. injection E as <-.
  rewrite (ss_path _ _ Hss) in Hg'. rewrite Hg' in E'. injection E' as <- <-. apply H.
Qed.
Lemma pf_registered pos : agree same_info (registered g p tbl pos) (registered g' p' tbl' pos).
Proof. unfold registered. rewrite Hg, Hg'. pose proof (pf_table pos) as H. destruct (tbl !! pos), (tbl' !! pos); done. Qed.
Lemma pf_names i : names_package ti' i = names_package ti i ∧ ∀ o path, names_package ti i = Some (o, path) → is_Some (pr_all Q !! path).
Proof.
  pose proof (Hnames (id_ptr i)) as H. unfold names_package, agree in *. destruct (ti_uses ti (id_ptr i)) as [o|], (ti_uses ti' (id_ptr i)) as [o'|]; try done.
  destruct H as [(-> & path & E & Hl)|[H1 H2]].
  - rewrite E. split; [done|]. intros ? ? [= <- <-]. done.
  - assert (X : ∀ x, (∀ path, o_kind x ≠ OPkgName path) → match o_kind x with OPkgName path => Some (x, path) | _ => None end = None).
    { intros x Hx. destruct (o_kind x) eqn:E; try done. by destruct (Hx imported_path). }
    rewrite (X o' H2), (X o H1). split; [done|]. intros ? ? [=].
Qed.
Lemma pf_sym path : is_Some (pr_all Q !! path) → g_pkgsyms g' !! path = g_pkgsyms g !! path.
Proof. intros H. by destruct (part_syms path H). Qed.
Lemma pf_hidden par : hidden g' ti' par = hidden g ti par.
Proof.
  unfold hidden. destruct par as [par|]; [|done]. destruct par; try done.
  match goal with |- context [match ?x with NIdent _ => _ | _ => _ end] => destruct x; try done end. destruct (pf_names i) as [-> H].
  destruct (names_package ti i) as [[o path]|] eqn:E; [|done]. by rewrite (pf_sym path (H _ _ eq_refl)).
Qed.
Lemma pf_switch i : switch_object ti' i = switch_object ti i.
Proof. unfold switch_object. by rewrite pf_case. Qed.
Lemma pf_local_def e : local_def g' p' ti' tbl' e = local_def g p ti tbl e.
Proof.
  unfold local_def, plain_ident. destruct e as [par n]. destruct n; try done. rewrite (pf_hidden par).
  destruct (hidden g ti par); [done|]. rewrite (proj1 (pf_names i)). destruct (names_package ti i); [done|]. destruct (String.eqb _ _); [done|].
  rewrite pf_switch. destruct (switch_object ti i); [done|]. rewrite pf_defs. destruct (ti_defs ti (id_ptr i)) as [d|]; [|done].
  pose proof (pf_registered (o_pos d)) as H. unfold agree in H. destruct (registered g p tbl (o_pos d)), (registered g' p' tbl' (o_pos d)); done.
Qed.
Lemma pf_local_defs : local_defs g' p' ti' tbl' f = local_defs g p ti tbl f.
Proof. unfold local_defs. induction (file_nodes f) as [|e l IH]; [done|]. cbn. by rewrite (pf_local_def e), IH. Qed.
Lemma pf_imports ptr nm pp : import_refs g' (pr_fs P) ti' (imports_of (pr_heap P) p') ptr nm pp = import_refs g (pr_fs Q) ti (imports_of (pr_heap Q) p) ptr nm pp.
Proof.
  unfold import_refs. rewrite pf_pkgname. destruct (ti_pkgname_of ti ptr) as [o|]; [|done]. destruct (o_kind o); try done.
  specialize (Himp imported_path). unfold agree in Himp. destruct (imports_of (pr_heap Q) p imported_path) as [a|], (imports_of (pr_heap P) p' imported_path) as [b|]; try done.
  destruct Himp as [E Hl]. rewrite E, (pf_sym _ Hl), (pt_fs _ _ Hpart). done.
Qed.
Lemma pf_def_occs n par i : def_occs g' (pr_fs P) p' ti' tbl' n par i = def_occs g (pr_fs Q) p ti tbl n par i.
Proof.
  unfold def_occs. rewrite pf_defs, (pt_fs _ _ Hpart). destruct (ti_defs ti (id_ptr i)) as [d|]; [|done].
  pose proof (pf_registered (o_pos d)) as H. unfold agree in H. destruct (registered g p tbl (o_pos d)), (registered g' p' tbl' (o_pos d)); try done.
  destruct H as (-> & -> & _). done.
Qed.
Notation occsQ := (node_occs g (pr_fs Q) p ti tbl (imports_of (pr_heap Q) p) (lk (pr_env Q) root version g)).
Notation occsP := (node_occs g' (pr_fs P) p' ti' tbl' (imports_of (pr_heap P) p') (lk (pr_env P) root version' g')).
Notation is_def := (λ o : occurrence, oc_roles o = role_definition).
Lemma use_no_def fs lookup (t : tinfo) known i : filter is_def (use_occs fs t lookup known i) = [].
Proof. unfold use_occs. destruct (ti_uses t (id_ptr i)) as [o|]; [|done]. destruct (local_symbol _ _); [done|]. by destruct (lookup o). Qed.
Lemma pf_node_defs before e : filter is_def (occsP before e) = filter is_def (occsQ before e).
Proof.
  pose proof (pf_local_def e) as Hl. destruct e as [par n]. destruct n; try done.
  - cbn [node_occs]. rewrite (pf_hidden par). destruct (hidden g ti par); [done|]. destruct (pf_names i) as [-> Hn].
    destruct (names_package ti i) as [[o path]|] eqn:En; [by rewrite (pf_sym path (Hn _ _ eq_refl)), (pt_fs _ _ Hpart)|].
    destruct (String.eqb _ _); [done|]. rewrite pf_switch. destruct (switch_object ti i); [by rewrite (pt_fs _ _ Hpart)|].
    rewrite !filter_app, !use_no_def, pf_def_occs. done.
  - cbn [node_occs]. by rewrite pf_imports.
Qed.
Lemma pf_nodes_defs l : ∀ before,
  filter is_def (nodes_occs g' (pr_fs P) p' ti' tbl' (imports_of (pr_heap P) p') (lk (pr_env P) root version' g') before l) =
  filter is_def (nodes_occs g (pr_fs Q) p ti tbl (imports_of (pr_heap Q) p) (lk (pr_env Q) root version g) before l).
Proof. induction l as [|e l IH]; intros before; [done|]. cbn [nodes_occs]. by rewrite !filter_app, pf_node_defs, IH, pf_local_def. Qed.

(** references *)
Context (Huses : ∀ n, agree (same_use Q P p) (ti_uses ti n) (ti_uses ti' n)).
Lemma other_file p1 f1 i1 : p1 ∈ pr_pkgs P → f1 ∈ p_syntax p1 → NIdent i1 ∈ subnodes f1 → p_path p1 ≠ p_path p →
  ∀ i', NIdent i' ∈ subnodes f → id_pos i' ≠ id_pos i1.
Proof.
  intros Hp1 Hf1 Hi1 Hne i' Hi' E. assert (Hf' : f ∈ p_syntax p') by (by rewrite (ss_syntax _ _ Hss)).
  destruct (tpj_info _ _ _ _ (ix_typed _ _ _ _ _ _ HixP) p1 f1 Hp1 Hf1) as (? & n1 & _ & _ & _ & Hn1).
  destruct (tpj_info _ _ _ _ (ix_typed _ _ _ _ _ _ HixP) p' f Hp' Hf') as (? & n & _ & _ & _ & Hn).
  pose proof (ix_idents _ _ _ _ _ _ HixP p1 f1 n1 i1 Hp1 Hf1 Hn1 Hi1) as E1. pose proof (ix_idents _ _ _ _ _ _ HixP p' f n i' Hp' Hf' Hn Hi') as E2.
  rewrite E, E1 in E2. injection E2 as ->.
  assert ((p1, f1) ∈ files_in_order (pr_pkgs P)) as [a Ha]%elem_of_list_lookup by by apply files_elem.
  assert ((p', f) ∈ files_in_order (pr_pkgs P)) as [b Hb]%elem_of_list_lookup by by apply files_elem.
  pose proof (tpj_files _ _ _ _ (ix_typed _ _ _ _ _ _ HixP) a b p1 f1 p' f n Ha Hb Hn1 Hn) as ->. rewrite Ha in Hb. injection Hb as -> ->.
  apply Hne, (ss_path _ _ Hss).
Qed.
Lemma not_in_prefix {A} pos (a b : list (Z * A)) : pos ∉ map fst (a ++ b) → index_of pos a = None.
Proof. intros H. apply index_of_none. intros Hin. apply H. rewrite List.map_app. apply elem_of_app. by left. Qed.
Lemma pf_use known rest i : known ++ rest = local_defs g p ti tbl f →
  Forall2 same_occurrence (use_occs (pr_fs Q) ti (lk (pr_env Q) root version g) known i) (use_occs (pr_fs P) ti' (lk (pr_env P) root version' g') known i) ∨
  is_Some (names_package ti i).
Proof.
  intros Hk. pose proof (Huses (id_ptr i)) as H. unfold agree in H. unfold use_occs, names_package.
  assert (Hf' : f ∈ p_syntax p') by (by rewrite (ss_syntax _ _ Hss)).
  destruct (tpj_info _ _ _ _ (ix_typed _ _ _ _ _ _ HixQ) p f Hp Hf) as (tj & n & Hj & Htf & Hdi & _). assert (tj = ti) as -> by congruence. clear Hj.
  destruct (tpj_info _ _ _ _ (ix_typed _ _ _ _ _ _ HixP) p' f Hp' Hf') as (tj & n' & Hj & Htf' & Hdi' & _). assert (tj = ti') as -> by congruence. clear Hj.
  destruct (ti_uses ti (id_ptr i)) as [o|] eqn:Eu, (ti_uses ti' (id_ptr i)) as [o'|] eqn:Eu'; try done; [|by left].
  assert (Same : ∀ x, ti_uses ti (id_ptr i) = Some x → ti_uses ti' (id_ptr i) = Some x → (∀ path, o_kind x ≠ OPkgName path) →
    (∀ tp, o_pkg x = Some tp → same_variants Q P (tp_path tp)) →
    Forall2 same_occurrence (match local_symbol known (o_pos x) with Some s => [Reference s (ident_span (pr_fs Q) i) false] | None =>
        match lk (pr_env Q) root version g x with Found info => [Reference (i_symbol info) (ident_span (pr_fs Q) i) (docs_deprecated (i_documentation info))] | _ => [] end end)
      (match local_symbol known (o_pos x) with Some s => [Reference s (ident_span (pr_fs P) i) false] | None =>
        match lk (pr_env P) root version' g' x with Found info => [Reference (i_symbol info) (ident_span (pr_fs P) i) (docs_deprecated (i_documentation info))] | _ => [] end end)).
  { intros x E E' Hnk Hv. rewrite <-(pt_fs _ _ Hpart). destruct (local_symbol known (o_pos x)); [by repeat constructor|].
    pose proof (part_lk x (tf_uses _ _ _ _ _ Htf _ _ E Hnk) (tf_uses _ _ _ _ _ Htf' _ _ E' Hnk) Hv) as Hr.
    destruct (lk (pr_env Q) root version g x), (lk (pr_env P) root version' g' x); try done. destruct Hr as (-> & -> & _). by repeat constructor. }
  destruct H as [o path Hko _|o Ho Hnk|o tp Htp Hnk Hv|o o' k p1 f1 i1 dep tp tp' q Hd Hpos Htp' Etp' Htp Etp Hun Hq Hh Hm Hnp Hkey Hkind Hfar].
  - right. rewrite Hko. by eexists.
  - left. apply Same; [done|done|done|]. intros tp Htp. congruence.
  - left. apply Same; [done|done|done|]. intros tp2 Htp2. assert (tp2 = tp) as -> by congruence. done.
  - left. destruct (Hkind o ltac:(by left)) as (K1 & K2 & K3). destruct (Hkind o' ltac:(by right)) as (K1' & K2' & K3').
    pose proof (dc_pkg _ _ _ _ _ Hd) as Hp1. pose proof (dc_file _ _ _ _ _ Hd) as Hf1.
    assert (Hi1 : NIdent i1 ∈ subnodes f1). { destruct Hd as [_ _ (par & Hpar & _) _ _ _ _ _]. by destruct (declares_child _ _ _ _ Hpar). }
    assert (Hne : p_path p1 ≠ p_path p).
    { intros E. assert (is_Some (pr_proj Q !! p_path p)) as [x Hx] by (apply in_pkgs_Q, elem_of_list_fmap; eauto).
      rewrite <- E, (Hnp (p_path p1) ltac:(left)) in Hx. done. }
    assert (L : local_symbol known (o_pos o) = None).
    { unfold local_symbol. rewrite (not_in_prefix (o_pos o) known rest); [done|]. rewrite Hk. eapply C11_other_file_not_local; [exact Htf|exact Hdi|]. intros i' Hi'. by apply (Hfar f). }
    assert (L' : local_symbol known (o_pos o') = None).
    { unfold local_symbol. rewrite (not_in_prefix (o_pos o') known rest); [done|]. rewrite Hk, <-pf_local_defs. eapply C11_other_file_not_local; [exact Htf'|exact Hdi'|].
      rewrite Hpos. by eapply other_file. }
    rewrite L, L'.
    destruct (dc_parent _ _ _ _ _ Hd) as (par & Hpar & _).
    destruct (final_entry digest (pr_env P) (pr_objs P) (pr_fs P) (pr_heap P) (pr_all P) (pr_proj P) (pr_pkgs P) HixP g0' g' p1 f1 i1 k par
      HtP HsP Hp1 Hf1 Hpar (dc_wf _ _ _ _ _ Hd) (dc_values _ _ _ _ _ Hd) (dc_pos _ _ _ _ _ Hd)) as (m & tb & info & Hm1 & Hgs & Hl & Hs).
    assert (R' : resolves (pr_env P) root version' g' o' (Found info)).
    { eapply (rs_own _ _ _ _ _ tp'); rewrite ?Etp', ?Hpos; try done. by exists p1, tb. }
    apply (answer_resolves _ _ _ _ _ _ _ (tf_uses _ _ _ _ _ Htf' _ _ Eu' K3')) in R'.
    pose proof (compose_key (pr_env Q) root version dep m (p_path p1) k o ltac:(congruence) Hkey) as Hc.
    assert (Hne' : composed (pr_env Q) root version dep o ≠ ""). { unfold composed. rewrite Hc. apply key_symbol_nonempty. }
    assert (R : resolves (pr_env Q) root version g o (Found (bare_info (composed (pr_env Q) root version dep o)))).
    { assert (Hd0 : g_symbols g0 !! p_path p1 = Some (dep, ∅)).
      { eapply tk_all; [exact HtQ|exact Hq|exact Hh|]. rewrite in_pkgs_Q, (Hnp (p_path p1) ltac:(left)). by intros []. }
      destruct (same_tables_lookup _ _ _ _ _ HsQ Hd0) as (t' & Hd1 & _).
      eapply (rs_composed _ _ _ _ _ tp dep t'); rewrite ?Etp; try done; apply part_unrec_Q, Hnp; [left|right; left|right; right; left]. }
    apply (answer_resolves _ _ _ _ _ _ _ (tf_uses _ _ _ _ _ Htf _ _ Eu K3)) in R.
    unfold lk. rewrite R, R', (pt_fs _ _ Hpart). constructor; [|constructor]. right. split; [done|]. split; [done|].
    cbn. unfold Reference. cbn. unfold composed. rewrite Hc, Hs. done.
Qed.

Lemma pf_node before e rest : before ++ option_list (local_def g p ti tbl e) ++ rest = local_defs g p ti tbl f →
  Forall2 same_occurrence (occsQ before e) (occsP before e).
Proof.
  assert (Refl : ∀ l, Forall2 same_occurrence l l) by (intros l; induction l; constructor; [by left|done]).
  intros Hk. pose proof (pf_local_def e) as Hl. destruct e as [par n]. destruct n; try (by constructor).
  - cbn [node_occs]. rewrite (pf_hidden par). destruct (hidden g ti par); [constructor|]. destruct (pf_names i) as [-> Hn].
    destruct (names_package ti i) as [[o path]|] eqn:En; [rewrite (pf_sym path (Hn _ _ eq_refl)), (pt_fs _ _ Hpart); apply Refl|].
    destruct (String.eqb _ _); [constructor|]. rewrite pf_switch. destruct (switch_object ti i); [rewrite (pt_fs _ _ Hpart); apply Refl|].
    rewrite pf_def_occs, Hl. apply Forall2_app; [apply Refl|].
    destruct (pf_use (before ++ option_list (local_def g p ti tbl (par, NIdent i))) rest i) as [H|H]; [by rewrite <-List.app_assoc|exact H|].
    rewrite En in H. by destruct H.
  - cbn [node_occs]. rewrite pf_imports. apply Refl.
Qed.
Lemma pf_nodes l : ∀ before, before ++ omap (local_def g p ti tbl) l = local_defs g p ti tbl f → Forall2 same_occurrence
  (nodes_occs g (pr_fs Q) p ti tbl (imports_of (pr_heap Q) p) (lk (pr_env Q) root version g) before l)
  (nodes_occs g' (pr_fs P) p' ti' tbl' (imports_of (pr_heap P) p') (lk (pr_env P) root version' g') before l).
Proof.
  induction l as [|e l IH]; intros before Hk; [constructor|]. cbn [nodes_occs].
  assert (E : omap (local_def g p ti tbl) (e :: l) = option_list (local_def g p ti tbl e) ++ omap (local_def g p ti tbl) l).
  { cbn. by destruct (local_def g p ti tbl e). }
  rewrite E in Hk. apply Forall2_app; [by eapply pf_node|]. rewrite pf_local_def. apply IH. by rewrite <-List.app_assoc.
Qed.
End Part.

Lemma same_unrelated_symbols fs fl (t t' : ptable) to to' : (∀ pos, agree same_info (t !! pos) (t' !! pos)) → to ≡ₚ map_to_list t → to' ≡ₚ map_to_list t' →
  map unrelated (map snd (symbols_for_file fs fl to')) ≡ₚ map unrelated (map snd (symbols_for_file fs fl to)).
Proof.
  intros Ha Ht Ht'. assert (E : unrelated <$> t' = unrelated <$> t).
  { apply map_eq. intros pos. rewrite !lookup_fmap. specialize (Ha pos). unfold agree in Ha. destruct (t !! pos) as [i|], (t' !! pos) as [i'|]; try done.
    cbn. f_equal. destruct i, i'. destruct Ha as (?&?&?&?&?&?). cbn in *. unfold unrelated. cbn. congruence. }
  assert (X : ∀ (x : ptable) tx, tx ≡ₚ map_to_list x → map snd (symbols_for_file fs fl (map_to_list (unrelated <$> x))) ≡ₚ map unrelated (map snd (symbols_for_file fs fl tx))).
  { intros x tx Hx. apply (unrelated_table fs fl x (unrelated <$> x)); [| |done|done].
    - intros pos. rewrite lookup_fmap. destruct (x !! pos) as [i|]; [|done]. cbn. by destruct i.
    - intros pos i. rewrite lookup_fmap. destruct (x !! pos) as [j|]; [|done]. by intros [= <-]. }
  rewrite <-(X t' to' Ht'), <-(X t to Ht), E. done.
Qed.
Lemma use_names Q P p ti ti' : (∀ n, agree (same_use Q P p) (ti_uses ti n) (ti_uses ti' n)) → same_package_names Q P ti ti'.
Proof.
  intros H n. specialize (H n). unfold agree in *. destruct (ti_uses ti n) as [o|], (ti_uses ti' n) as [o'|]; try done.
  destruct H as [o path Hko Hl|o Ho Hnk|o tp Htp Hnk Hv|o o' k p1 f1 i1 dep tp tp' q Hd Hpos Htp' Etp' Htp Etp Hun Hq Hh Hm Hnp Hkey Hkind Hfar].
  - left. split; [done|]. by exists path.
  - by right.
  - by right.
  - right. split; apply Hkind; [by left|by right].
Qed.

Lemma same_path X p p' : project_in_order (pr_heap X) (pr_proj X) (pr_pkgs X) → p ∈ pr_pkgs X → p' ∈ pr_pkgs X → p_path p' = p_path p → p' = p.
Proof. intros [_ Hin] Hp Hp' E. destruct (Hin p Hp) as (q & Hq & Hh). destruct (Hin p' Hp') as (q' & Hq' & Hh'). congruence. Qed.

(** the two documents of a file, and the tables behind them *)
Lemma both_documents digest objstr root Q P msgs msgs' p p' f ti ti' :
  part_of Q P → indexed_as digest objstr root Q msgs → indexed_as digest objstr root P msgs' →
  p ∈ pr_pkgs Q → p' ∈ pr_pkgs P → p_path p' = p_path p → f ∈ p_syntax p → p_info p = Some ti → p_info p' = Some ti' →
  same_imports Q P p p' → same_package_names Q P ti ti' →
  ∃ d d', document_of (pr_pkgs Q) (documents msgs) p f d ∧ document_of (pr_pkgs P) (documents msgs') p' f d' ∧
    d_path d' = d_path d ∧ map unrelated (d_symbols d') ≡ₚ map unrelated (d_symbols d) ∧
    filter (λ o, oc_roles o = role_definition) (d_occs d') = filter (λ o, oc_roles o = role_definition) (d_occs d) ∧
    ((∀ n, agree (same_use Q P p) (ti_uses ti n) (ti_uses ti' n)) → Forall2 same_occurrence (d_occs d) (d_occs d')).
Proof.
  intros Hpart (mo & version & impl & ie & po & ao & po2 & skip & meta & w & Hix & Hmo & K1 & K2 & K3 & Hic & Hrun)
    (mo' & version' & impl' & ie' & po' & ao' & po2' & skip' & meta' & w' & Hix' & Hmo' & K1' & K2' & K3' & Hic' & Hrun') Hp Hp' Epath Hf Hti Hti' Himp Hnames.
  destruct (success _ _ _ _ _ _ _ _ _ _ _ _ _ _ _ _ _ _ _ _ Hix Hmo K1 K2 K3 Hic msgs Hrun) as (ds & exts & g0 & g & kk & -> & Htab & _ & Hst & Hds).
  destruct (success _ _ _ _ _ _ _ _ _ _ _ _ _ _ _ _ _ _ _ _ Hix' Hmo' K1' K2' K3' Hic' msgs' Hrun') as (ds' & exts' & g0' & g' & kk' & -> & Htab' & _ & Hst' & Hds').
  assert (Hss : same_source p p').
  { destruct (pt_pkgs _ _ Hpart p Hp) as (p2 & Hp2 & Hss). assert (p2 = p') as ->; [|done].
    eapply (same_path P); [apply (ix_order _ _ _ _ _ _ Hix')|done|done|]. rewrite (ss_path _ _ Hss). done. }
  assert (Hf' : f ∈ p_syntax p') by (by rewrite (ss_syntax _ _ Hss)).
  assert ((p, f) ∈ files_in_order (pr_pkgs Q)) as [a Ha]%elem_of_list_lookup by by apply files_elem.
  assert ((p', f) ∈ files_in_order (pr_pkgs P)) as [b Hb]%elem_of_list_lookup by by apply files_elem.
  destruct (Forall2_lookup_l _ _ _ _ _ Hds Ha) as (d & Hd & Hdoc). destruct (Forall2_lookup_l _ _ _ _ _ Hds' Hb) as (d' & Hd' & Hdoc'). cbn in Hdoc, Hdoc'.
  exists d, d'. split; [exists a; by rewrite documents_msgs|]. split; [exists b; by rewrite documents_msgs|].
  destruct Hdoc as (tj & tbl & st & sym & name & to & lo & H1 & H2 & H3 & H4 & H5 & H6 & H7 & ->). assert (tj = ti) as -> by congruence.
  destruct Hdoc' as (tj & tbl' & st' & sym' & name' & to' & lo' & H1' & H2' & H3' & H4' & H5' & H6' & H7' & ->). assert (tj = ti') as -> by congruence.
  unfold file_of in H2, H2'. rewrite <-(pt_fs _ _ Hpart), H2 in H2'. injection H2' as <-.
  assert (sym' = sym) as ->.
  { assert (is_Some (pr_all Q !! p_path p)) as Hl.
    { destruct (ix_loaded _ _ _ _ _ _ Hix) as (_ & _ & Hsm). destruct (ix_order _ _ _ _ _ _ Hix) as [_ Hin]. destruct (Hin p Hp) as (q & Hq & Hh).
      destruct (Hsm _ _ _ Hq Hh) as (? & ? & ? & _). by eexists. }
    pose proof (pf_sym digest Q P Hpart Hix g0 g g0' g' Htab Hst Htab' Hst' _ Hl) as E. rewrite (ss_path _ _ Hss) in H4'. congruence. }
  destruct (tpj_info _ _ _ _ (ix_typed _ _ _ _ _ _ Hix) p f Hp Hf) as (tj & ? & Hj & Htf & _). assert (tj = ti) as -> by congruence. clear Hj.
  destruct (tpj_info _ _ _ _ (ix_typed _ _ _ _ _ _ Hix') p' f Hp' Hf') as (tj & ? & Hj & Htf' & _). assert (tj = ti') as -> by congruence. clear Hj.
  destruct (visited_occs _ _ _ _ _ _ _ _ _ _ _ _ _ Htf (lk_answers _ _ root version g _ _ _ _ Htf) st H5) as (_ & O & I).
  destruct (visited_occs _ _ _ _ _ _ _ _ _ _ _ _ _ Htf' (lk_answers _ _ root version' g' _ _ _ _ Htf') st' H5') as (_ & O' & I').
  pose proof (pf_local_defs digest Q P Hpart Hix g0 g g0' g' Htab Hst Htab' Hst' p p' Hp Hss ti ti' Hti Hti' f tbl tbl' H3 H3' Hnames) as EL.
  assert (Efs : pr_fs P = pr_fs Q) by (symmetry; apply (pt_fs _ _ Hpart)).
  assert (El : f_locals st' = f_locals st).
  { apply map_eq. intros pos. by rewrite (iv_locals _ _ _ _ _ _ _ I), (iv_locals _ _ _ _ _ _ _ I'), EL. }
  split; [done|]. split; [|split].
  - cbn [to_document d_symbols]. rewrite !List.map_app. apply Permutation_app.
    + rewrite Efs. eapply same_unrelated_symbols; [|done|done]. by eapply (pf_table digest Q P Hpart g0 g g0' g' Htab Hst Htab' Hst' p p').
    + assert (lo' ≡ₚ lo) as -> by (by rewrite H7, H7', El). rewrite <-(pt_env _ _ Hpart).
      assert (X : ∀ l : Z * local, local_info (pr_env Q) ti' objstr l.2 = local_info (pr_env Q) ti objstr l.2).
      { intros l. unfold local_info, case_at. by rewrite (pf_case p p' Hss ti ti' Hti Hti'). }
      by rewrite (map_ext _ _ X).
  - cbn [to_document d_occs]. rewrite O, O', Efs.
    pose proof (pf_nodes_defs digest Q P Hpart root version version' Hix g0 g g0' g' Htab Hst Htab' Hst' p p' Hp Hss ti ti' Hti Hti' tbl tbl' H3 H3' Hnames Himp (file_nodes f) []) as X.
    rewrite Efs in X. rewrite !filter_cons. destruct (decide _); [|exact X]. f_equal. exact X.
  - intros Huses. cbn [to_document d_occs]. rewrite O, O'. constructor; [left; by rewrite Efs|].
    apply (pf_nodes digest Q P Hpart root version version' Hix Hix' g0 g g0' g' Htab Hst Htab' Hst' p p' Hp Hp' Hss ti ti' Hti Hti' f Hf tbl tbl' H3 H3' Hnames Himp Huses). done.
Qed.

(** C81: the index of a part of a project has, for every file of its packages, the document that the index of the whole
    project has: the same path, occurrences with the same ranges, symbols and roles in the same order, and the same
    information about symbols, up to relationships.  A reference can be marked as deprecated in the index of the whole
    project only (C81_deprecated_refuted, ExPart.v).  Missing because false: references to methods of interfaces and to methods
    declared on aliases, in packages that only P indexes (PropPartMethod.v). *)
Theorem C81_same_documents_partial : ∀ digest objstr root Q P msgs msgs' p p' f ti ti',
  part_of Q P → indexed_as digest objstr root Q msgs → indexed_as digest objstr root P msgs' →
  p ∈ pr_pkgs Q → p' ∈ pr_pkgs P → p_path p' = p_path p → f ∈ p_syntax p → p_info p = Some ti → p_info p' = Some ti' →
  same_imports Q P p p' → (∀ n, agree (same_use Q P p) (ti_uses ti n) (ti_uses ti' n)) →
  ∃ d d', document_of (pr_pkgs Q) (documents msgs) p f d ∧ document_of (pr_pkgs P) (documents msgs') p' f d' ∧
    d_path d' = d_path d ∧ Forall2 same_occurrence (d_occs d) (d_occs d') ∧ map unrelated (d_symbols d') ≡ₚ map unrelated (d_symbols d).
Proof.
  intros digest objstr root Q P msgs msgs' p p' f ti ti' Hpart HQ HP Hp Hp' Ep Hf Hti Hti' Himp Huses.
  destruct (both_documents digest objstr root Q P msgs msgs' p p' f ti ti' Hpart HQ HP Hp Hp' Ep Hf Hti Hti' Himp (use_names _ _ _ _ _ Huses))
    as (d & d' & D & D' & E1 & E2 & _ & E3). exists d, d'. split_and!; try done. by apply E3.
Qed.
Print Assumptions C81_same_documents_partial.

(** ... and whatever else its identifiers refer to, the same definitions and the same information about symbols. *)
Theorem C81_same_definitions : ∀ digest objstr root Q P msgs msgs' p p' f ti ti',
  part_of Q P → indexed_as digest objstr root Q msgs → indexed_as digest objstr root P msgs' →
  p ∈ pr_pkgs Q → p' ∈ pr_pkgs P → p_path p' = p_path p → f ∈ p_syntax p → p_info p = Some ti → p_info p' = Some ti' →
  same_imports Q P p p' → same_package_names Q P ti ti' →
  ∃ d d', document_of (pr_pkgs Q) (documents msgs) p f d ∧ document_of (pr_pkgs P) (documents msgs') p' f d' ∧
    d_path d' = d_path d ∧
    filter (λ o, oc_roles o = role_definition) (d_occs d') = filter (λ o, oc_roles o = role_definition) (d_occs d) ∧
    map unrelated (d_symbols d') ≡ₚ map unrelated (d_symbols d).
Proof.
  intros digest objstr root Q P msgs msgs' p p' f ti ti' Hpart HQ HP Hp Hp' Ep Hf Hti Hti' Himp Hn.
  destruct (both_documents digest objstr root Q P msgs msgs' p p' f ti ti' Hpart HQ HP Hp Hp' Ep Hf Hti Hti' Himp Hn)
    as (d & d' & D & D' & E1 & E2 & E3 & _). by exists d, d'.
Qed.
Print Assumptions C81_same_definitions.
