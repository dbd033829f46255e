(** C77: find implementations.  The relationships of the symbols of a project, in terms of the
    declarations of the project and of the exported types of its dependencies. *)
From Coq Require Import Ascii String.
From stdpp Require Import prelude strings gmap sorting.
From Verif Require Import GoStr Scip GoTypes Ast Packages Symbols Document Lookup Pass1 Pass2 Paths Loader Index
  SpecSymbol SpecDecl SpecLookup SpecOcc SpecIndex P_Symbols P_Pass1 P_Link P_Lookup P_Pass2 P_Occ P_Index PropIndex
  Quote Fingerprint SpecTypes P_Finger PropFinger Impls P_Rel P_Ident SpecImpl P_Filter P_Mem P_Extract P_Impl PropImpl PropDet
  PropCross PropPrecise.
Open Scope string_scope.
Open Scope list_scope.

(** *** Specification *)
(** what go/types knows beyond the project record: method sets, satisfaction of constraints, whether
    an object is in the scope of the package, and the scope of a dependency *)
Record type_info := TypeInfo {
  tf_mset : ty → list obj; tf_constraint : ty → ty → bool;
  tf_level : gpkg → obj → bool; tf_scope : gpkg → list obj }.

(** msgs are the messages of a successful run with the search for implementations *)
Definition search_indexed (P : project) (F : type_info) (msgs : list message) : Prop :=
  ∃ digest u crc objstr root version it impl_error meta w,
    indexable (pr_objs P) (pr_fs P) (pr_heap P) (pr_all P) (pr_proj P) (pr_pkgs P) ∧
    analysable (pr_env P) (tf_mset F) (pr_objs P) (tf_scope F) (pr_heap P) (pr_all P) (pr_proj P) ∧
    iteration_ok (pr_heap P) (pr_all P) (pr_proj P) it ∧
    Index.index digest (pr_env P) (pr_fs P) (pr_heap P) objstr (it_maps it) w
      (impl_phase (pr_env P) u crc (tf_mset F) (tf_constraint F) (tf_level F) (tf_scope F) (it_search it) (pr_heap P) (pr_proj P) (pr_all P))
      impl_error root version false meta (LoadOk (pr_all P) (pr_proj P)) (it_proj it) (it_all it) (it_proj2 it) = (msgs, Returned None).

(** identifier i of file f of package p declares the named type of object o at package level *)
Record project_type (P : project) (F : type_info) (p : gpkg) (f : node) (i : Ast.ident) (o : obj) : Prop := ProjectType {
  pt_decl : declaration P p f i (KeyType (id_name i));
  pt_info : ∃ ti, p_info p = Some ti ∧ ti_defs ti (id_ptr i) = Some o;
  pt_kind : o_kind o = OTypeName; pt_named : named (o_type o);
  pt_level : p_types p = None ∨ tf_level F p o = true; pt_real : p_name p ≠ "builtin" }.
(** o is an exported named type in the scope of a dependency *)
Record dependency_type (P : project) (F : type_info) (p : gpkg) (o : obj) : Prop := DependencyType {
  dt_pkg : ∃ q, pr_all P !! p_path p = Some q ∧ pr_heap P !! q = Some p ∧ pr_proj P !! p_path p = None;
  dt_info : p_info p = None; dt_types : is_Some (p_types p); dt_real : p_name p ≠ "builtin";
  dt_scope : o ∈ tf_scope F p; dt_kind : o_kind o = OTypeName; dt_exported : is_exported (o_name o) = true; dt_named : named (o_type o) }.
(** a named type, the package it belongs to, and its documented symbol *)
Inductive symbol_of_type (P : project) (F : type_info) : gpkg → obj → string → Prop :=
| st_project p f i o m : project_type P F p f i o → p_module p = Some m →
    symbol_of_type P F p o (key_symbol (p_path p) m (KeyType (id_name i)))
| st_dependency p o m : dependency_type P F p o → p_module p = Some m →
    symbol_of_type P F p o (key_symbol (p_path p) m (KeyType (o_name o))).

(** Facts of the Go type checker: named types of the scope of a package are declared in it by name, once;
    a scope has one object per name; no method is declared where a type is; and module paths do not
    start with spaces. *)
Record scopes_ok (P : project) (F : type_info) : Prop := ScopesOk {
  sk_declared : ∀ p ti k o, p ∈ pr_pkgs P → p_info p = Some ti → ti_defs ti k = Some o → o_kind o = OTypeName →
    p_types p = None ∨ tf_level F p o = true → named (o_type o) → p_name p ≠ "builtin" →
    ∃ f i, id_ptr i = k ∧ project_type P F p f i o;
  sk_once : ∀ p f i o f' i' o', project_type P F p f i o → project_type P F p f' i' o' → id_name i = id_name i' → o = o';
  sk_scope : ∀ p o, dependency_type P F p o → o_origin o = None;
  sk_scope_once : ∀ p o o', dependency_type P F p o → dependency_type P F p o' → o_name o = o_name o' → o = o';
  sk_methods : ∀ t m p f i o, m ∈ tf_mset F t → project_type P F p f i o → o_pos m ≠ id_pos i;
  sk_modules : clean_modules P }.

(** type o of package p implements interface oi of package pi, as far as the search goes: the interface
    has methods, and unexported ones only in the same package *)
Definition implementation (P : project) (F : type_info) (p : gpkg) (o : obj) (pi : gpkg) (oi : obj) : Prop :=
  is_interface (pr_env P) (o_type o) = false ∧ is_interface (pr_env P) (o_type oi) = true ∧
  (∃ m, has_method (pr_env P) (tf_mset F) (o_type oi) m) ∧
  satisfies (pr_env P) (tf_mset F) (tf_constraint F) (o_type o) (o_type oi) ∧
  (sealed (pr_env P) (tf_mset F) (o_type oi) → p_path p = p_path pi).
Definition implementation_relationship (s : string) : relationship := Rel s false true false false.

(** the index describes, in the document of f, the symbol s by [info] *)
Definition described_by (P : project) (msgs : list message) (p : gpkg) (f : node) (s : string) (info : syminfo) : Prop :=
  ∃ d, document_of (pr_pkgs P) (documents msgs) p f d ∧ info ∈ d_symbols d ∧ i_symbol info = s.

(** *** Proofs *)
Lemma key_symbol_path path m k path' m' k' : clean_module m → clean_module m' → key_symbol path m k = key_symbol path' m' k' → path = path' ∧ k = k'.
Proof.
  intros Hc Hc' H. unfold key_symbol in H. apply format_symbol_inj in H; [|by apply clean_module_symbol..].
  pose proof (f_equal s_descriptors H) as E. cbn [s_descriptors] in E. unfold key_descriptors in E.
  injection E as E1 E2. split; [done|]. subst path'. apply (key_descriptors_inj path). unfold key_descriptors. by f_equal.
Qed.

Section Find.
Context (P : project) (F : type_info) (digest : string → string).
Context (Hix : indexable (pr_objs P) (pr_fs P) (pr_heap P) (pr_all P) (pr_proj P) (pr_pkgs P)).
Context (Han : analysable (pr_env P) (tf_mset F) (pr_objs P) (tf_scope F) (pr_heap P) (pr_all P) (pr_proj P)).
Context (Hsk : scopes_ok P F) (root version : string) (g0 : global) (Htab : tables_ok digest (pr_env P) (pr_fs P) (pr_heap P) (pr_all P) (pr_pkgs P) g0).
Notation cands := (candidate (pr_env P) (tf_mset F) (tf_level F) (tf_scope F) root version (pr_heap P) g0).
Notation deps := (remote_packages (pr_all P) (pr_proj P)).

Lemma in_project p : p ∈ pr_pkgs P ↔ ∃ q, pr_proj P !! p_path p = Some q ∧ pr_heap P !! q = Some p.
Proof.
  destruct (ix_order _ _ _ _ _ _ Hix) as [[Hl _] Hin]. split; [apply Hin|]. intros (q & Hq & Hh).
  assert (p_path p ∈ map p_path (pr_pkgs P)) as (p' & Ep & Hp')%elem_of_list_fmap by (apply Hl; eauto).
  destruct (Hin p' Hp') as (q' & Hq' & Hh'). congruence.
Qed.
Lemma key_in_project key q p : pr_proj P !! key = Some q → pr_heap P !! q = Some p → p ∈ pr_pkgs P ∧ key = p_path p.
Proof.
  intros Hq Hh. destruct (ix_loaded _ _ _ _ _ _ Hix) as (_ & Hkp & _). destruct (Hkp _ _ Hq) as (p' & m & Hh' & Hk & _).
  assert (p' = p) as -> by congruence. split; [|done]. apply in_project. exists q. rewrite Hk. done.
Qed.
Lemma module_of p : p ∈ pr_pkgs P → ∃ m, p_module p = Some m ∧ clean_module m.
Proof.
  intros Hp. apply in_project in Hp as (q & Hq & Hh). destruct (ix_loaded _ _ _ _ _ _ Hix) as (Hka & Hkp & Hsm).
  destruct (Hkp _ _ Hq) as (p' & m & Hh' & _ & Hm). assert (p' = p) as -> by congruence. exists m. split; [done|].
  destruct (Hsm _ _ _ Hq Hh) as (q2 & p2 & A1 & A2 & A3). eapply (sk_modules _ _ Hsk); [exact A1|exact A2|congruence].
Qed.
Lemma declared_recorded p f i k : declaration P p f i k → ∃ m info, p_module p = Some m ∧ recorded g0 (p_path p) (id_pos i) info ∧ i_symbol info = key_symbol (p_path p) m k.
Proof.
  intros [Hp Hf (par & Hd & Hpar) Hwf Hv Hpos Hnb Hty].
  destruct (final_entry digest (pr_env P) (pr_objs P) (pr_fs P) (pr_heap P) (pr_all P) (pr_proj P) (pr_pkgs P) Hix g0 g0 p f i k par Htab (same_tables_refl _) Hp Hf Hd Hwf Hv Hpos) as (m & tbl & info & Hm & Hg & Hl & Hs).
  exists m, info. split; [done|]. split; [by exists p, tbl|done].
Qed.
Lemma declared_ident p f i k : declaration P p f i k → NIdent i ∈ subnodes f.
Proof. intros [Hp Hf (par & Hd & _) _ _ _ _ _]. by destruct (declares_child _ _ _ _ Hd). Qed.
Lemma declared_pos p f i k ti o : declaration P p f i k → p_info p = Some ti → ti_defs ti (id_ptr i) = Some o → o_pos o = id_pos i.
Proof.
  intros Hd Hti Ho. destruct (tpj_info _ _ _ _ (ix_typed _ _ _ _ _ _ Hix) p f (dc_pkg _ _ _ _ _ Hd) (dc_file _ _ _ _ _ Hd)) as (ti' & name & Hti' & _ & Hdi & _).
  assert (ti' = ti) as -> by congruence. eapply (proj1 Hdi); [by eapply declared_ident|done].
Qed.
(** identifiers at the same position are the same *)
Lemma same_place p f i k f' i' k' : declaration P p f i k → declaration P p f' i' k' → id_pos i = id_pos i' → f' = f ∧ i' = i.
Proof.
  intros Hd Hd' E. pose proof (declared_ident _ _ _ _ Hd) as Hi. pose proof (declared_ident _ _ _ _ Hd') as Hi'.
  pose proof (dc_pkg _ _ _ _ _ Hd) as Hp. pose proof (dc_file _ _ _ _ _ Hd) as Hf. pose proof (dc_file _ _ _ _ _ Hd') as Hf'.
  destruct (tpj_info _ _ _ _ (ix_typed _ _ _ _ _ _ Hix) p f Hp Hf) as (ti & name & Hti & _ & Hdi & Hn).
  destruct (tpj_info _ _ _ _ (ix_typed _ _ _ _ _ _ Hix) p f' Hp Hf') as (ti' & name' & Hti' & _ & Hdi' & Hn').
  pose proof (ix_idents _ _ _ _ _ _ Hix p f name _ Hp Hf Hn Hi) as F1. pose proof (ix_idents _ _ _ _ _ _ Hix p f' name' _ Hp Hf' Hn' Hi') as F2.
  rewrite <-E, F1 in F2. injection F2 as <-.
  assert ((p, f) ∈ files_in_order (pr_pkgs P)) as [n E1]%elem_of_list_lookup by by apply files_elem.
  assert ((p, f') ∈ files_in_order (pr_pkgs P)) as [n' E2]%elem_of_list_lookup by by apply files_elem.
  pose proof (tpj_files _ _ _ _ (ix_typed _ _ _ _ _ _ Hix) _ _ _ _ _ _ _ E1 E2 Hn Hn') as <-.
  rewrite E1 in E2. injection E2 as <-. split; [done|].
  apply elem_of_node_idents in Hi, Hi'. apply elem_of_list_lookup in Hi as [a Ha]. apply elem_of_list_lookup in Hi' as [b Hb].
  assert (a = b) as <-; [|congruence]. eapply (NoDup_lookup _ a b (id_pos i) (proj2 Hdi)); by rewrite list_lookup_fmap, ?Ha, ?Hb; cbn; rewrite ?E.
Qed.

(** the types that are considered *)
Lemma project_candidate c : cands (pr_proj P) c ↔ (∃ f i m, project_type P F (c_pkg c) f i (c_obj c) ∧ p_module (c_pkg c) = Some m ∧
  c_symbol c = key_symbol (p_path (c_pkg c)) m (KeyType (id_name i))) ∧ ∃ m, has_method (pr_env P) (tf_mset F) (c_type c) m.
Proof.
  split.
  - intros [key q p ti i o tn args info H1 H2 H3 H4 H5 H6 H7 H8 H9 H10|key q p tp o tn args H1 H2 H3 H4 H5 H6 H7 H8 H9 H10 H11]; cbn [c_pkg c_obj c_symbol c_type].
    + destruct (key_in_project _ _ _ H1 H2) as [Hp _]. split; [|done].
      destruct (sk_declared _ _ Hsk p ti i o Hp H4 H5 H6 H7 (ex_intro _ tn (ex_intro _ args H8)) H3) as (f & id & Ei & Hpt). subst i. exists f, id.
      destruct (declared_recorded _ _ _ _ (pt_decl _ _ _ _ _ _ Hpt)) as (m & info' & Hm & Hr & Hs). exists m. split; [done|]. split; [done|].
      rewrite (declared_pos _ _ _ _ _ _ (pt_decl _ _ _ _ _ _ Hpt) H4 H5) in H9. rewrite <-Hs. f_equal.
      destruct H9 as (p1 & t1 & A1 & A2), Hr as (p2 & t2 & B1 & B2). congruence.
    + destruct (an_proj _ _ _ _ _ _ _ Han _ _ H1) as (p' & m & ti & Hh & _ & _ & Hti). congruence.
  - intros [(f & i & m & Hpt & Hm & Hs) Hmeth]. destruct c as [p o s]. cbn [c_pkg c_obj c_symbol c_type] in *. subst s.
    destruct Hpt as [Hd (ti & Hti & Hdef) Hk (tn & args & Hn) Hl Hr].
    destruct (declared_recorded _ _ _ _ Hd) as (m' & info & Hm' & Hrec & Hs). assert (m' = m) as -> by congruence. rewrite <-Hs.
    destruct (proj1 (in_project p) (dc_pkg _ _ _ _ _ Hd)) as (q & Hq & Hh).
    eapply (cand_source _ _ _ _ _ _ _ _ _ (p_path p) q p ti (id_ptr i) o tn args info); try done.
    by rewrite (declared_pos _ _ _ _ _ _ Hd Hti Hdef).
Qed.
Lemma dependency_module p o : dependency_type P F p o → ∃ m, p_module p = Some m ∧ clean_module m.
Proof.
  intros H. destruct (dt_pkg _ _ _ _ H) as (q & Hq & Hh & _). destruct (an_all _ _ _ _ _ _ _ Han _ _ Hq) as (p' & m & Hh' & _ & Hm).
  assert (p' = p) as -> by congruence. exists m. split; [done|]. by eapply (sk_modules _ _ Hsk).
Qed.
Lemma dependency_symbol p o m : dependency_type P F p o → p_module p = Some m → composed (pr_env P) root version p o = key_symbol (p_path p) m (KeyType (o_name o)).
Proof.
  intros H Hm. destruct (dt_pkg _ _ _ _ H) as (q & Hq & Hh & Hn). unfold composed. apply (compose_key _ _ _ _ m); [done|].
  split; [by eapply sk_scope|]. destruct (an_scope _ _ _ _ _ _ _ Han _ _ _ _ Hq Hn Hh (dt_scope _ _ _ _ H)) as (_ & tp & E1 & E2). exists tp. split; [done|]. split; [done|].
  split; [apply H|done].
Qed.
Lemma dependency_candidate c : cands deps c ↔ (∃ m, dependency_type P F (c_pkg c) (c_obj c) ∧ p_module (c_pkg c) = Some m ∧
  c_symbol c = key_symbol (p_path (c_pkg c)) m (KeyType (o_name (c_obj c)))) ∧ ∃ m, has_method (pr_env P) (tf_mset F) (c_type c) m.
Proof.
  split.
  - intros [key q p ti i o tn args info H1 H2 H3 H4 H5 H6 H7 H8 H9 H10|key q p tp o tn args H1 H2 H3 H4 H5 H6 H7 H8 H9 H10 H11]; cbn [c_pkg c_obj c_symbol c_type];
      apply remote_dependencies in H1 as [H1 Hn]; destruct (an_all _ _ _ _ _ _ _ Han _ _ H1) as (p' & m & Hh' & <- & Hm); assert (p' = p) as -> by congruence.
    + exfalso. destruct (tables_initial digest _ _ _ _ _ _ g0 Htab (ix_order _ _ _ _ _ _ Hix)) as [Hi _].
      destruct H9 as (p1 & t1 & A1 & A2). rewrite (Hi _ _ _ H1 Hn H2) in A1. injection A1 as <- <-. by rewrite lookup_empty in A2.
    + split; [|done]. assert (Hd : dependency_type P F p o). { split; try done; [by exists q|by exists tn, args]. }
      exists m. split; [done|]. split; [done|]. by apply dependency_symbol.
  - intros [(m & Hd & Hm & Hs) Hmeth]. destruct c as [p o s]. cbn [c_pkg c_obj c_symbol c_type] in *. subst s.
    rewrite <-(dependency_symbol _ _ _ Hd Hm). pose proof (dependency_symbol _ _ _ Hd Hm) as Ec.
    destruct Hd as [(q & Hq & Hh & Hn) Hi [tp Ht] Hr Hs Hk He (tn & args & Hty)].
    eapply (cand_export _ _ _ _ _ _ _ _ _ (p_path p) q p tp o tn args); try done; [by apply remote_dependencies|].
    rewrite Ec. apply key_symbol_nonempty.
Qed.
Lemma symbol_candidate p o s : (∃ m, has_method (pr_env P) (tf_mset F) (o_type o) m) →
  (cands (pr_proj P) (Cand p o s) ∨ cands deps (Cand p o s)) ↔ symbol_of_type P F p o s.
Proof.
  intros Hm. rewrite project_candidate, dependency_candidate. cbn [c_pkg c_obj c_symbol c_type]. split.
  - intros [[(f & i & m & H1 & H2 & ->) _]|[(m & H1 & H2 & ->) _]]; [by eapply st_project|by eapply st_dependency].
  - intros Hs. revert Hm. destruct Hs as [p' f i o' m H1 H2|p' o' m H1 H2]; intros Hm; [left|right]; (split; [|exact Hm]); [by exists f, i, m|by exists m].
Qed.

Lemma project_distinct : distinct_symbols (pr_env P) (tf_mset F) (tf_level F) (tf_scope F) root version (pr_heap P) g0 (pr_proj P).
Proof.
  intros [p o s] [p' o' s'] [(f & i & m & H1 & H2 & Hs) _]%project_candidate [(f' & i' & m' & H1' & H2' & Hs') _]%project_candidate E. cbn [c_pkg c_obj c_symbol] in *. subst s s'.
  destruct (module_of p (dc_pkg _ _ _ _ _ (pt_decl _ _ _ _ _ _ H1))) as (mm & Hm & Hc). destruct (module_of p' (dc_pkg _ _ _ _ _ (pt_decl _ _ _ _ _ _ H1'))) as (mm' & Hm' & Hc').
  assert (mm = m) as -> by congruence. assert (mm' = m') as -> by congruence.
  destruct (key_symbol_path _ _ _ _ _ _ Hc Hc' E) as [Ep Ek]. injection Ek as Ek.
  destruct (proj1 (in_project p) (dc_pkg _ _ _ _ _ (pt_decl _ _ _ _ _ _ H1))) as (q & Hq & Hh). destruct (proj1 (in_project p') (dc_pkg _ _ _ _ _ (pt_decl _ _ _ _ _ _ H1'))) as (q' & Hq' & Hh').
  assert (p' = p) as -> by congruence. pose proof (sk_once _ _ Hsk _ _ _ _ _ _ _ H1 H1' Ek) as Eo. subst o'. f_equal. exact E.
Qed.
Lemma dependencies_distinct : distinct_symbols (pr_env P) (tf_mset F) (tf_level F) (tf_scope F) root version (pr_heap P) g0 deps.
Proof.
  intros [p o s] [p' o' s'] [(m & H1 & H2 & Hs) _]%dependency_candidate [(m' & H1' & H2' & Hs') _]%dependency_candidate E. cbn [c_pkg c_obj c_symbol] in *. subst s s'.
  destruct (dependency_module _ _ H1) as (mm & Hm & Hc). destruct (dependency_module _ _ H1') as (mm' & Hm' & Hc').
  assert (mm = m) as -> by congruence. assert (mm' = m') as -> by congruence.
  destruct (key_symbol_path _ _ _ _ _ _ Hc Hc' E) as [Ep Ek]. injection Ek as Ek.
  destruct (dt_pkg _ _ _ _ H1) as (q & Hq & Hh & _). destruct (dt_pkg _ _ _ _ H1') as (q' & Hq' & Hh' & _).
  assert (p' = p) as -> by congruence. pose proof (sk_scope_once _ _ Hsk _ _ _ H1 H1' Ek) as Eo. subst o'. f_equal. exact E.
Qed.

(** an implementation has methods *)
Lemma implementation_methods p o pi oi : named (o_type oi) → implementation P F p o pi oi → ∃ m, has_method (pr_env P) (tf_mset F) (o_type o) m.
Proof.
  intros (tn & args & En) (Hc & Hi & [m Hm] & (ms & s & Hu & Hs) & _).
  assert (Hin : m ∈ tf_mset F (o_type oi)) by (destruct Hm as [?|[? _]]; [done|congruence]).
  pose proof (ms_interface _ _ _ (an_methods _ _ _ _ _ _ _ Han) tn args ms s) as X. rewrite En in Hin, Hu. cbn [underlying] in Hu.
  specialize (X Hu). assert (Hin' : (obj_Id m, o_type m) ∈ ms) by (rewrite <-X; by apply (elem_of_list_fmap_1 (λ m, (obj_Id m, o_type m)))).
  destruct Hs as [[Hs _]|[Hs _]]; destruct (Hs _ _ Hin') as (m' & Hm' & _); exists m'; [by left|by right].
Qed.
Lemma symbol_named p o s : symbol_of_type P F p o s → named (o_type o).
Proof. intros [p' f i o' m H _|p' o' m H _]; apply H. Qed.

Notation expects := (expected (pr_env P) (tf_mset F) (tf_constraint F) (tf_level F) (tf_scope F) root version (pr_heap P) g0 (pr_proj P) deps).
Notation relates := (related (pr_env P) (tf_mset F) (tf_constraint F) (tf_level F) (tf_scope F) root version (pr_heap P) g0 (pr_proj P) deps).
Lemma related_types t i : relates t i ↔
  implementation P F (c_pkg t) (c_obj t) (c_pkg i) (c_obj i) ∧ symbol_of_type P F (c_pkg t) (c_obj t) (c_symbol t) ∧ symbol_of_type P F (c_pkg i) (c_obj i) (c_symbol i) ∧
  ((∃ f id, project_type P F (c_pkg t) f id (c_obj t)) ∨ ∃ f id, project_type P F (c_pkg i) f id (c_obj i)).
Proof.
  destruct t as [pt ot st], i as [pi oi si]. cbn [c_pkg c_obj c_symbol]. split.
  - intros (Hc & Hs & Hse). assert (Hmi : ∃ m, has_method (pr_env P) (tf_mset F) (o_type oi) m).
    { destruct Hc as [_ [Hi|Hi] _ _|_ Hi _ _]; first [apply project_candidate in Hi as [_ Hi]|apply dependency_candidate in Hi as [_ Hi]]; done. }
    assert (Hmt : ∃ m, has_method (pr_env P) (tf_mset F) (o_type ot) m).
    { destruct Hc as [Hi _ _ _|Hi _ _ _]; first [apply project_candidate in Hi as [_ Hi]|apply dependency_candidate in Hi as [_ Hi]]; done. }
    split; [|split; [|split]].
    + destruct Hc as [_ _ H1 H2|_ _ H1 H2]; by split_and!.
    + apply symbol_candidate; [done|]. destruct Hc; [by left|by right].
    + apply symbol_candidate; [done|]. destruct Hc; [done|by left].
    + destruct Hc as [Hi _ _ _|_ Hi _ _]; apply project_candidate in Hi as [(f & id & m & H & _) _]; [left|right]; by exists f, id.
  - intros (Himp & H1 & H2 & Hp). pose proof (implementation_methods _ _ _ _ (symbol_named _ _ _ H2) Himp) as Hmt. destruct Himp as (A1 & A2 & A3 & A4 & A5).
    split; [|done]. apply (symbol_candidate _ _ _ Hmt) in H1. apply (symbol_candidate _ _ _ A3) in H2.
    assert (X : ∀ p o s, cands deps (Cand p o s) → (∃ f id, project_type P F p f id o) → False).
    { intros p o s [(m & Hd & _) _]%dependency_candidate (f & id & Hpt). cbn [c_pkg c_obj] in Hd. destruct (dt_pkg _ _ _ _ Hd) as (q & _ & _ & Hn).
      destruct (proj1 (in_project p) (dc_pkg _ _ _ _ _ (pt_decl _ _ _ _ _ _ Hpt))) as (q' & Hq' & _). congruence. }
    destruct Hp as [Hp|Hp].
    + destruct H1 as [H1|H1]; [|by apply X in H1]. by apply compare_local.
    + destruct H2 as [H2|H2]; [|by apply X in H2]. destruct H1 as [H1|H1]; [apply compare_local|apply compare_dep]; try done. by left.
Qed.

(** what is expected at the place of a type *)
Lemma expected_at_type p f i o s : project_type P F p f i o → expects (p_path p) (id_pos i) s ↔
  ∃ pi oi, symbol_of_type P F pi oi s ∧ implementation P F p o pi oi.
Proof.
  intros Hpt. split.
  - intros [t c Hr Hi Hp Hpos <-|t c m m' info Hr Hm _ _ _ _ Hpos _ _].
    + apply related_types in Hr as (Himp & Ht & Hs & _). exists (c_pkg c), (c_obj c). split; [done|].
      destruct t as [pt ot st]. cbn [c_pkg c_obj c_symbol] in *. destruct Ht as [p' f' i' o' m' Hpt' Hm|p' o' m' Hd Hm]; [|by destruct Hi; apply Hd].
      assert (p' = p) as ->.
      { destruct (proj1 (in_project p) (dc_pkg _ _ _ _ _ (pt_decl _ _ _ _ _ _ Hpt))) as (q & Hq & Hh). destruct (proj1 (in_project p') (dc_pkg _ _ _ _ _ (pt_decl _ _ _ _ _ _ Hpt'))) as (q' & Hq' & Hh'). congruence. }
      assert (o' = o) as ->; [|done]. destruct (pt_info _ _ _ _ _ _ Hpt) as (ti & Hti & Ho). destruct (pt_info _ _ _ _ _ _ Hpt') as (ti' & Hti' & Ho').
      assert (ti' = ti) as -> by congruence. rewrite (declared_pos _ _ _ _ _ _ (pt_decl _ _ _ _ _ _ Hpt') Hti Ho') in Hpos.
      destruct (same_place _ _ _ _ _ _ _ (pt_decl _ _ _ _ _ _ Hpt) (pt_decl _ _ _ _ _ _ Hpt') (eq_sym Hpos)) as [_ ->]. congruence.
    + exfalso. destruct Hm as [Hm|[_ Hm]]; by eapply (sk_methods _ _ Hsk).
  - intros (pi & oi & Hs & Himp). destruct (module_of p (dc_pkg _ _ _ _ _ (pt_decl _ _ _ _ _ _ Hpt))) as (m & Hm & _).
    destruct (pt_info _ _ _ _ _ _ Hpt) as (ti & Hti & Ho).
    eapply (exp_type _ _ _ _ _ _ _ _ _ _ _ _ _ _ (Cand p o (key_symbol (p_path p) m (KeyType (id_name i)))) (Cand pi oi s)); cbn [c_pkg c_obj c_symbol]; try done.
    + apply related_types. cbn [c_pkg c_obj c_symbol]. split; [done|]. split; [by eapply st_project|]. split; [done|]. left. by exists f, i.
    + congruence.
    + by eapply declared_pos; [apply Hpt|..].
Qed.
End Find.

(** C77: the symbol of a named type of the project is described in the document of its file, with an
    implementation relationship to the symbols of exactly the interfaces it implements, in the project
    and its dependencies. *)
Theorem C77_implementations : ∀ P F msgs p f i o,
  search_indexed P F msgs → scopes_ok P F → project_type P F p f i o →
  ∃ m info, p_module p = Some m ∧ described_by P msgs p f (key_symbol (p_path p) m (KeyType (id_name i))) info ∧
    ∀ r, r ∈ i_relationships info ↔ ∃ pi oi s, r = implementation_relationship s ∧
      symbol_of_type P F pi oi s ∧ implementation P F p o pi oi.
Proof.
  intros P F msgs p f i o (digest & u & crc & objstr & root & version & it & ie & meta & w & Hix & Han & (Hmo & Ho & H1 & H2 & H3) & Hrun) Hsk Hpt.
  destruct (C34_documents (pr_env P) u crc (tf_mset F) (tf_constraint F) (pr_objs P) (tf_level F) (tf_scope F) root version (pr_heap P) (pr_all P) (pr_proj P) Han digest (pr_fs P) objstr
    (it_maps it) (pr_pkgs P) ie _ _ _ meta w (it_search it) Hix Hmo H1 H2 H3 Ho _ msgs (remote_dependencies _ _) Hrun) as (g0 & Htab & H).
  destruct (H (project_distinct P F digest Hix Han Hsk root version g0 Htab) (dependencies_distinct P F digest Hix Han Hsk root version g0 Htab)) as [Hrel _].
  pose proof (pt_decl _ _ _ _ _ _ Hpt) as Hd. pose proof (dc_pkg _ _ _ _ _ Hd) as Hp. pose proof (dc_file _ _ _ _ _ Hd) as Hf.
  destruct (declared_recorded P digest Hix g0 Htab _ _ _ _ Hd) as (m & j & Hm & Hrec & Hs).
  destruct (tpj_info _ _ _ _ (ix_typed _ _ _ _ _ _ Hix) p f Hp Hf) as (ti & name & Hti & _ & Hdi & Hn).
  assert (Hdoc : ∃ d, document_of (pr_pkgs P) (documents msgs) p f d).
  { destruct (success digest (pr_env P) (pr_objs P) (pr_fs P) (pr_heap P) objstr (it_maps it) root version (pr_all P) (pr_proj P) (pr_pkgs P) _ ie _ _ _ false meta w Hix Hmo H1 H2 H3
      (search_contract _ _ _ _ _ _ _ _ root version _ _ _ Han _ Ho) msgs Hrun) as (ds & exts & g1 & g2 & k & -> & _ & _ & _ & Hds).
    assert ((p, f) ∈ files_in_order (pr_pkgs P)) as [n Hi]%elem_of_list_lookup by by apply files_elem.
    destruct (Forall2_lookup_l _ _ _ _ _ Hds Hi) as (d & Hdn & _). exists d, n. by rewrite documents_msgs. }
  destruct Hdoc as [d Hdoc]. pose proof (ix_idents _ _ _ _ _ _ Hix p f name i Hp Hf Hn (declared_ident _ _ _ _ _ Hd)) as Hfile.
  destruct (Hrel p f d name (id_pos i) j Hdoc Hn Hrec Hfile) as (info & Hin & (Hsame & _) & (_ & _ & Hr)).
  exists m, info. split; [done|]. split; [exists d; split; [done|]; split; [done|congruence]|].
  intros r. rewrite Hr, (expected_at_type P F digest Hix Han Hsk root version g0 Htab p f i o (r_symbol r) Hpt). split.
  - intros [(pi & oi & Hsy & Himp) ->]. cbn [r_symbol]. by exists pi, oi, (r_symbol r).
  - intros (pi & oi & s & -> & Hsy & Himp). cbn [implementation_relationship r_symbol]. split; [by exists pi, oi|done].
Qed.
Print Assumptions C77_implementations.

Lemma search_indexed_indexed P F msgs : search_indexed P F msgs → indexed P msgs.
Proof.
  intros (digest & u & crc & objstr & root & version & it & ie & meta & w & Hix & Han & (Hmo & Ho & H1 & H2 & H3) & Hrun).
  eexists digest, objstr, (it_maps it), root, version, _, ie, _, _, _, false, meta, w. split; [exact Hix|]. split; [exact Hmo|].
  split; [exact H1|]. split; [exact H2|]. split; [exact H3|]. split; [|exact Hrun]. by apply search_contract.
Qed.

(** Following such a relationship leads to the definition of the interface, or to a type of a dependency;
    and interfaces have no relationships themselves. *)
Theorem C77_leads_to_definition : ∀ P F msgs p f i o,
  search_indexed P F msgs → scopes_ok P F → project_type P F p f i o →
  ∃ m info, p_module p = Some m ∧ described_by P msgs p f (key_symbol (p_path p) m (KeyType (id_name i))) info ∧
    defines P msgs p f i (key_symbol (p_path p) m (KeyType (id_name i))) ∧
    (is_interface (pr_env P) (o_type o) = true → i_relationships info = []) ∧
    ∀ r, r ∈ i_relationships info →
      (∃ pi fi ii oi, project_type P F pi fi ii oi ∧ is_interface (pr_env P) (o_type oi) = true ∧ defines P msgs pi fi ii (r_symbol r)) ∨
      (∃ pi oi m, dependency_type P F pi oi ∧ is_interface (pr_env P) (o_type oi) = true ∧ p_module pi = Some m ∧
         r_symbol r = key_symbol (p_path pi) m (KeyType (o_name oi))).
Proof.
  intros P F msgs p f i o Hx Hsk Hpt. destruct (C77_implementations P F msgs p f i o Hx Hsk Hpt) as (m & info & Hm & Hd & Hr).
  pose proof (search_indexed_indexed _ _ _ Hx) as Hi. exists m, info. split; [done|]. split; [done|]. split; [|split].
  - destruct (declaration_defined P msgs p f i _ Hi (pt_decl _ _ _ _ _ _ Hpt)) as (m' & Hm' & Hdef). assert (m' = m) as -> by congruence. done.
  - intros Hint. destruct (i_relationships info) as [|r l]; [done|]. destruct (proj1 (Hr r)) as (pi & oi & s & _ & _ & Hc & _); [left|]. congruence.
  - intros r Hin. apply Hr in Hin as (pi & oi & s & -> & Hs & Himp). cbn [implementation_relationship r_symbol]. destruct Himp as (_ & Hint & _).
    destruct Hs as [pi fi ii oi mi Hpi Hmi|pi oi mi Hdi Hmi]; [left|right; by exists pi, oi, mi].
    exists pi, fi, ii, oi. split; [done|]. split; [done|].
    destruct (declaration_defined P msgs pi fi ii _ Hi (pt_decl _ _ _ _ _ _ Hpi)) as (m' & Hm' & Hdef). assert (m' = mi) as -> by congruence. done.
Qed.
Print Assumptions C77_leads_to_definition.

(** *** Methods *)
(** identifier i of file f of package p declares the method o, of a type or of an interface, by key k *)
Record project_method (P : project) (F : type_info) (p : gpkg) (f : node) (i : Ast.ident) (k : dkey) (o : obj) : Prop := ProjectMethod {
  pm_decl : declaration P p f i k;
  pm_info : ∃ ti, p_info p = Some ti ∧ ti_defs ti (id_ptr i) = Some o;
  pm_func : ∃ r, o_kind o = OFunc r;
  pm_pkg : ∃ tp, o_pkg o = Some tp ∧ tp_path tp = p_path p ∧ p_path p ≠ "unsafe";
  pm_method : ∃ t, o ∈ tf_mset F t }.
(** method o of type ot implements method oi of the interface of object ot', of the same name *)
Definition implements_method (P : project) (F : type_info) (pt : gpkg) (ot : obj) (o : obj) (pi : gpkg) (oti : obj) (oi : obj) : Prop :=
  implementation P F pt ot pi oti ∧ has_method (pr_env P) (tf_mset F) (o_type ot) o ∧ has_method (pr_env P) (tf_mset F) (o_type oti) oi ∧ obj_Id o = obj_Id oi.

Section FindMethods.
Context (P : project) (F : type_info) (digest : string → string).
Context (Hix : indexable (pr_objs P) (pr_fs P) (pr_heap P) (pr_all P) (pr_proj P) (pr_pkgs P)).
Context (Han : analysable (pr_env P) (tf_mset F) (pr_objs P) (tf_scope F) (pr_heap P) (pr_all P) (pr_proj P)).
Context (Hsk : scopes_ok P F) (root version : string) (g0 : global) (Htab : tables_ok digest (pr_env P) (pr_fs P) (pr_heap P) (pr_all P) (pr_pkgs P) g0).
Notation deps := (remote_packages (pr_all P) (pr_proj P)).
Notation expects := (expected (pr_env P) (tf_mset F) (tf_constraint F) (tf_level F) (tf_scope F) root version (pr_heap P) g0 (pr_proj P) deps).
Notation resolve := (resolves (pr_env P) root version g0).

Lemma method_resolves p f i k o : project_method P F p f i k o →
  ∃ m info, p_module p = Some m ∧ resolve o (Found info) ∧ i_symbol info = key_symbol (p_path p) m k ∧ entry_of g0 o (p_path p) ∧ o_pos o = id_pos i.
Proof.
  intros [Hd (ti & Hti & Ho) (r & Hk) (tp & Hp & Ep & Hu) _]. destruct (declared_recorded P digest Hix g0 Htab _ _ _ _ Hd) as (m & info & Hm & Hrec & Hs).
  pose proof (declared_pos P Hix _ _ _ _ _ _ Hd Hti Ho) as Epos. rewrite <-Epos, <-Ep in Hrec. exists m, info. split; [done|]. split; [|split; [done|]; split; [|done]].
  - eapply rs_own; [by rewrite Hk|by rewrite Hk|done|by rewrite Ep|done].
  - rewrite <-Ep. by eapply eo_own.
Qed.
Lemma method_symbol p f i k o info : project_method P F p f i k o → resolve o (Found info) → ∃ m, p_module p = Some m ∧ i_symbol info = key_symbol (p_path p) m k.
Proof.
  intros Hpm Hr. destruct (method_resolves _ _ _ _ _ Hpm) as (m & info' & Hm & Hr' & Hs & _). exists m. split; [done|].
  destruct (pm_method _ _ _ _ _ _ _ Hpm) as [t Ht].
  pose proof (resolves_fun (pr_env P) (pr_objs P) root version g0 o _ _ (ms_object _ _ _ (an_methods _ _ _ _ _ _ _ Han) _ _ Ht) Hr Hr') as E. by injection E as ->.
Qed.

Lemma expected_at_method p f i k o s : project_method P F p f i k o → expects (p_path p) (id_pos i) s ↔
  ∃ pt ot st pi oti sti oM oI info, symbol_of_type P F pt ot st ∧ symbol_of_type P F pi oti sti ∧
    ((∃ f id, project_type P F pt f id ot) ∨ ∃ f id, project_type P F pi f id oti) ∧
    implements_method P F pt ot oM pi oti oI ∧ o_pos oM = id_pos i ∧ entry_of g0 oM (p_path p) ∧ (∃ info, resolve oM (Found info)) ∧
    resolve oI (Found info) ∧ i_symbol info = s.
Proof.
  intros Hpm. destruct (pm_method _ _ _ _ _ _ _ Hpm) as [tm Htm]. destruct (method_resolves _ _ _ _ _ Hpm) as (_ & _ & _ & _ & _ & _ & Epos). split.
  - intros [t c Hr Hi Hp Hpos <-|t c m m' info Hr Hm Hm' Eid Hres Hent Hpos Hres' Hs].
    + exfalso. apply (related_types P F digest Hix Han Hsk root version g0 Htab) in Hr as (_ & Ht & _). destruct t as [pt ot st]. cbn [c_pkg c_obj c_symbol] in *.
      destruct Ht as [p' f' i' o' m' Hpt' Hm|p' o' m' Hd Hm]; [|by destruct Hi; apply Hd].
      destruct (pt_info _ _ _ _ _ _ Hpt') as (ti' & Hti' & Ho'). rewrite (declared_pos P Hix _ _ _ _ _ _ (pt_decl _ _ _ _ _ _ Hpt') Hti' Ho') in Hpos.
      eapply (sk_methods _ _ Hsk tm o); [exact Htm|exact Hpt'|congruence].
    + apply (related_types P F digest Hix Han Hsk root version g0 Htab) in Hr as (Himp & Ht & Hs' & Hproj).
      exists (c_pkg t), (c_obj t), (c_symbol t), (c_pkg c), (c_obj c), (c_symbol c), m, m', info. by split_and!.
  - intros (pt & ot & st & pi & oti & sti & oM & oI & info & Ht & Hs & Hproj & (Himp & Hm & Hm' & Eid) & Hpos & Hent & Hres & Hres' & <-).
    eapply (exp_method _ _ _ _ _ _ _ _ _ _ _ _ _ _ (Cand pt ot st) (Cand pi oti sti) oM oI info); try done.
    by apply (related_types P F digest Hix Han Hsk root version g0 Htab).
Qed.
End FindMethods.

(** the document of a declared method describes it, with the expected relationships *)
Lemma method_described P F msgs : search_indexed P F msgs → scopes_ok P F →
  ∃ digest root version g0, tables_ok digest (pr_env P) (pr_fs P) (pr_heap P) (pr_all P) (pr_pkgs P) g0 ∧
    (∀ p f i k, declaration P p f i k → ∃ m info, p_module p = Some m ∧ described_by P msgs p f (key_symbol (p_path p) m k) info ∧
       relationships_are (i_relationships info) (expected (pr_env P) (tf_mset F) (tf_constraint F) (tf_level F) (tf_scope F) root version (pr_heap P) g0 (pr_proj P)
         (remote_packages (pr_all P) (pr_proj P)) (p_path p) (id_pos i))) ∧
    ext_spec (pr_env P) (tf_mset F) (tf_constraint F) (tf_level F) (tf_scope F) root version (pr_heap P) g0 (pr_proj P) (remote_packages (pr_all P) (pr_proj P)) (externals msgs).
Proof.
  intros (digest & u & crc & objstr & root & version & it & ie & meta & w & Hix & Han & (Hmo & Ho & H1 & H2 & H3) & Hrun) Hsk.
  destruct (C34_documents (pr_env P) u crc (tf_mset F) (tf_constraint F) (pr_objs P) (tf_level F) (tf_scope F) root version (pr_heap P) (pr_all P) (pr_proj P) Han digest (pr_fs P) objstr
    (it_maps it) (pr_pkgs P) ie _ _ _ meta w (it_search it) Hix Hmo H1 H2 H3 Ho _ msgs (remote_dependencies _ _) Hrun) as (g0 & Htab & H).
  destruct (H (project_distinct P F digest Hix Han Hsk root version g0 Htab) (dependencies_distinct P F digest Hix Han Hsk root version g0 Htab)) as [Hrel Hext].
  exists digest, root, version, g0. split; [done|]. split; [|done]. intros p f i k Hd.
  pose proof (dc_pkg _ _ _ _ _ Hd) as Hp. pose proof (dc_file _ _ _ _ _ Hd) as Hf.
  destruct (declared_recorded P digest Hix g0 Htab _ _ _ _ Hd) as (m & j & Hm & Hrec & Hs).
  destruct (tpj_info _ _ _ _ (ix_typed _ _ _ _ _ _ Hix) p f Hp Hf) as (ti & name & Hti & _ & Hdi & Hn).
  assert (Hdoc : ∃ d, document_of (pr_pkgs P) (documents msgs) p f d).
  { destruct (success digest (pr_env P) (pr_objs P) (pr_fs P) (pr_heap P) objstr (it_maps it) root version (pr_all P) (pr_proj P) (pr_pkgs P) _ ie _ _ _ false meta w Hix Hmo H1 H2 H3
      (search_contract _ _ _ _ _ _ _ _ root version _ _ _ Han _ Ho) msgs Hrun) as (ds & exts & g1 & g2 & kk & -> & _ & _ & _ & Hds).
    assert ((p, f) ∈ files_in_order (pr_pkgs P)) as [n Hi]%elem_of_list_lookup by by apply files_elem.
    destruct (Forall2_lookup_l _ _ _ _ _ Hds Hi) as (d & Hdn & _). exists d, n. by rewrite documents_msgs. }
  destruct Hdoc as [d Hdoc]. pose proof (ix_idents _ _ _ _ _ _ Hix p f name i Hp Hf Hn (declared_ident _ _ _ _ _ Hd)) as Hfile.
  destruct (Hrel p f d name (id_pos i) j Hdoc Hn Hrec Hfile) as (info & Hin & (Hsame & _) & Hr).
  exists m, info. split; [done|]. split; [exists d; split; [done|]; split; [done|congruence]|done].
Qed.

(** A method of a type that implements an interface has a relationship to the method of the interface;
    every relationship of a method comes about in this way. *)
Theorem C77_methods : ∀ P F msgs p f i k o,
  search_indexed P F msgs → scopes_ok P F → project_method P F p f i k o →
  ∃ m info, p_module p = Some m ∧ described_by P msgs p f (key_symbol (p_path p) m k) info ∧
    (∀ pt ot st pti oti sti pi fi ii ki oi mi,
       symbol_of_type P F pt ot st → symbol_of_type P F pti oti sti →
       (∃ f id, project_type P F pt f id ot) ∨ (∃ f id, project_type P F pti f id oti) →
       implements_method P F pt ot o pti oti oi → project_method P F pi fi ii ki oi → p_module pi = Some mi →
       implementation_relationship (key_symbol (p_path pi) mi ki) ∈ i_relationships info) ∧
    (∀ r, r ∈ i_relationships info → ∃ pt ot st pti oti sti o' oi,
       symbol_of_type P F pt ot st ∧ symbol_of_type P F pti oti sti ∧ o_pos o' = o_pos o ∧
       implements_method P F pt ot o' pti oti oi ∧
       ∀ pi fi ii ki, project_method P F pi fi ii ki oi → ∃ mi, p_module pi = Some mi ∧
         r = implementation_relationship (key_symbol (p_path pi) mi ki) ∧ defines P msgs pi fi ii (r_symbol r)).
Proof.
  intros P F msgs p f i k o Hx Hsk Hpm. pose proof (search_indexed_indexed _ _ _ Hx) as Hidx.
  pose proof Hx as (_ & _ & _ & _ & _ & _ & _ & _ & _ & _ & Hix & Han & _ & _).
  destruct (method_described P F msgs Hx Hsk) as (digest & root & version & g0 & Htab & Hdesc & _).
  destruct (Hdesc _ _ _ _ (pm_decl _ _ _ _ _ _ _ Hpm)) as (m & info & Hm & Hby & (_ & _ & Hr)).
  destruct (method_resolves P F digest Hix root version g0 Htab _ _ _ _ _ Hpm) as (m0 & info0 & _ & Hres & _ & Hent & Epos).
  exists m, info. split; [done|]. split; [done|]. split.
  - intros pt ot st pti oti sti pi fi ii ki oi mi Ht Hs Hproj Himp Hpmi Hmi.
    destruct (method_resolves P F digest Hix root version g0 Htab _ _ _ _ _ Hpmi) as (mi' & infoi & Hmi' & Hresi & Hsi & _).
    assert (mi' = mi) as -> by congruence. apply Hr. cbn [implementation_relationship r_symbol]. split; [|done].
    apply (expected_at_method P F digest Hix Han Hsk root version g0 Htab p f i k o _ Hpm).
    exists pt, ot, st, pti, oti, sti, o, oi, infoi. do 4 (split; [done|]). split; [done|]. split; [done|]. split; [by exists info0|]. done.
  - intros r Hin. apply Hr in Hin as [Hexp Er].
    apply (expected_at_method P F digest Hix Han Hsk root version g0 Htab p f i k o _ Hpm) in Hexp as (pt & ot & st & pti & oti & sti & o' & oi & infoi & Ht & Hs & _ & Himp & Epos' & _ & _ & Hresi & Esym).
    exists pt, ot, st, pti, oti, sti, o', oi. split; [done|]. split; [done|]. split; [congruence|]. split; [done|].
    intros pi fi ii ki Hpmi. destruct (method_symbol P F digest Hix Han root version g0 Htab _ _ _ _ _ _ Hpmi Hresi) as (mi & Hmi & Esi).
    exists mi. split; [done|]. rewrite <-Esi, Esym. split; [done|].
    destruct (declaration_defined P msgs pi fi ii _ Hidx (pm_decl _ _ _ _ _ _ _ Hpmi)) as (m' & Hm' & Hdef). assert (m' = mi) as -> by congruence. by rewrite <-Esym, Esi.
Qed.
Print Assumptions C77_methods.

(** The external symbols are those of the exported types of dependencies that implement interfaces of
    the project, each once, with relationships to exactly these. *)
Theorem C77_external : ∀ P F msgs, search_indexed P F msgs → scopes_ok P F →
  NoDup (map i_symbol (externals msgs)) ∧
  (∀ info, info ∈ externals msgs → ∃ p o m, dependency_type P F p o ∧ p_module p = Some m ∧ i_symbol info = key_symbol (p_path p) m (KeyType (o_name o)) ∧
     i_relationships info ≠ [] ∧
     ∀ r, r ∈ i_relationships info ↔ ∃ pi fi ii oi mi, project_type P F pi fi ii oi ∧ p_module pi = Some mi ∧ implementation P F p o pi oi ∧
       r = implementation_relationship (key_symbol (p_path pi) mi (KeyType (id_name ii)))) ∧
  (∀ p o m pi fi ii oi, dependency_type P F p o → p_module p = Some m → project_type P F pi fi ii oi → implementation P F p o pi oi →
     ∃ info, info ∈ externals msgs ∧ i_symbol info = key_symbol (p_path p) m (KeyType (o_name o))).
Proof.
  intros P F msgs Hx Hsk. pose proof Hx as (_ & _ & _ & _ & _ & _ & _ & _ & _ & _ & Hix & Han & _ & _).
  destruct (method_described P F msgs Hx Hsk) as (digest & root & version & g0 & Htab & _ & Hext1 & Hext2 & Hnd). split; [done|].
  assert (X : ∀ c s, dependency_type P F (c_pkg c) (c_obj c) → symbol_of_type P F (c_pkg c) (c_obj c) (c_symbol c) →
    expected_of (pr_env P) (tf_mset F) (tf_constraint F) (tf_level F) (tf_scope F) root version (pr_heap P) g0 (pr_proj P) (remote_packages (pr_all P) (pr_proj P)) c s ↔
    ∃ pi fi ii oi mi, project_type P F pi fi ii oi ∧ p_module pi = Some mi ∧ implementation P F (c_pkg c) (c_obj c) pi oi ∧ s = key_symbol (p_path pi) mi (KeyType (id_name ii))).
  { intros c s Hd Hs. unfold expected_of. rewrite (dt_info _ _ _ _ Hd). split.
    - intros (i & Hr & <-). apply (related_types P F digest Hix Han Hsk root version g0 Htab) in Hr as (Himp & _ & Hi & Hproj).
      assert (Hpi : ∃ f id, project_type P F (c_pkg i) f id (c_obj i)).
      { destruct Hproj as [(f & id & Hpt)|?]; [|done]. exfalso. destruct (dt_pkg _ _ _ _ Hd) as (q & _ & _ & Hn).
        destruct (proj1 (in_project P Hix _) (dc_pkg _ _ _ _ _ (pt_decl _ _ _ _ _ _ Hpt))) as (q' & Hq' & _). congruence. }
      destruct i as [pi oi si]. cbn [c_pkg c_obj c_symbol] in *. destruct Hi as [pi f id oi mi Hpt Hmi|pi oi mi Hdi Hmi].
      + by exists pi, f, id, oi, mi.
      + exfalso. destruct Hpi as (f & id & Hpt). destruct (dt_pkg _ _ _ _ Hdi) as (q & _ & _ & Hn).
        destruct (proj1 (in_project P Hix _) (dc_pkg _ _ _ _ _ (pt_decl _ _ _ _ _ _ Hpt))) as (q' & Hq' & _). congruence.
    - intros (pi & fi & ii & oi & mi & Hpt & Hmi & Himp & ->). exists (Cand pi oi (key_symbol (p_path pi) mi (KeyType (id_name ii)))). split; [|done].
      apply (related_types P F digest Hix Han Hsk root version g0 Htab). cbn [c_pkg c_obj c_symbol]. split; [done|]. split; [done|]. split; [by eapply st_project|]. right. by exists fi, ii. }
  split.
  - intros info Hin. destruct (Hext1 info Hin) as (c & b & Hc & _ & Hsym & _ & _ & [s0 Hs0] & (_ & _ & Hr)).
    apply (dependency_candidate P F digest Hix Han Hsk root version g0 Htab) in Hc as [(m & Hd & Hm & Hs) _].
    assert (Hst : symbol_of_type P F (c_pkg c) (c_obj c) (c_symbol c)) by (rewrite Hs; by eapply st_dependency).
    exists (c_pkg c), (c_obj c), m. split; [done|]. split; [done|]. split; [congruence|]. split.
    + intros E. assert (implementation_relationship s0 ∈ i_relationships info) as Hi by (apply Hr; done). rewrite E in Hi. by apply elem_of_nil in Hi.
    + intros r. rewrite Hr, (X c _ Hd Hst). split.
      * intros [(pi & fi & ii & oi & mi & A1 & A2 & A3 & A4) Er]. exists pi, fi, ii, oi, mi. split_and!; try done. by rewrite <-A4.
      * intros (pi & fi & ii & oi & mi & A1 & A2 & A3 & ->). cbn [implementation_relationship r_symbol]. split; [by exists pi, fi, ii, oi, mi|done].
  - intros p o m pi fi ii oi Hd Hm Hpt Himp.
    assert (Hst : symbol_of_type P F p o (key_symbol (p_path p) m (KeyType (o_name o)))) by by eapply st_dependency.
    destruct (module_of P F Hix Hsk pi (dc_pkg _ _ _ _ _ (pt_decl _ _ _ _ _ _ Hpt))) as (mi & Hmi & _).
    apply (Hext2 (Cand p o (key_symbol (p_path p) m (KeyType (o_name o))))).
    + apply (dependency_candidate P F digest Hix Han Hsk root version g0 Htab). cbn [c_pkg c_obj c_symbol c_type]. split; [by exists m|].
      eapply (implementation_methods P F Han); [|exact Himp]. apply Hpt.
    + apply Himp.
    + eexists. apply (X (Cand p o _)); [done|done|]. cbn [c_pkg c_obj]. by exists pi, fi, ii, oi, mi.
Qed.
Print Assumptions C77_external.
