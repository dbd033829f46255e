(** C58: navigation inside a file, for every kind of object, in the index of a successful run. *)
From Coq Require Import Ascii String.
From stdpp Require Import prelude strings gmap sorting.
From Verif Require Import GoStr Scip GoTypes Packages Symbols Document Lookup Pass1 Pass2 Paths
  Loader Index Ast SpecSymbol SpecDecl SpecLookup SpecOcc SpecIndex
  P_Symbols P_Pass1 P_Link P_Lookup P_Pass2 P_Occ P_Scope P_Index PropDecl PropOcc PropIndex PropCross ExDecl ExOcc ExIndex ExCross.
Open Scope string_scope.
Open Scope list_scope.

(** identifier i under parent par has a name, names no package, is not the name in an import spec, and, if it is
    the X in p.X for an imported package p, then that package is loaded *)
Definition visible (P : project) (ti : tinfo) (par : option node) (i : Ast.ident) : Prop :=
  id_name i ≠ "_" ∧
  (∀ o pp, ti_uses ti (id_ptr i) = Some o → o_kind o ≠ OPkgName pp) ∧
  match par with
  | Some (NImportSpec _ _ _ _) => False
  | Some (NSelectorExpr (NIdent x) _) =>
      ∀ u imp, ti_uses ti (id_ptr x) = Some u → o_kind u = OPkgName imp → is_Some (pr_all P !! imp)
  | _ => True
  end.
(** i is not the variable of a type switch *)
Definition no_switch (ti : tinfo) (i : Ast.ident) : Prop := ∀ c, c ∈ ti_case_objs ti → o_pos c ≠ id_pos i.

Lemma visible_plain P digest g0 g ti par i : loaded_project (pr_heap P) (pr_all P) (pr_proj P) →
  tables_ok digest (pr_env P) (pr_fs P) (pr_heap P) (pr_all P) (pr_pkgs P) g0 → same_tables g0 g →
  visible P ti par i → plain_ident g ti (par, NIdent i) = Some i.
Proof.
  intros (Hka & _) Ht Hst (Hb & Hn & Hpar). unfold plain_ident.
  assert (hidden g ti par = false) as ->.
  { unfold hidden, names_package. destruct par as [par|]; [|done]. destruct par; try contradiction; try reflexivity. match goal with |- match ?x with _ => _ end = false => destruct x; try reflexivity end.
    destruct (ti_uses ti (id_ptr i0)) as [u|] eqn:Eu; [|reflexivity]. destruct (o_kind u) eqn:Ek; try done.
    destruct (Hpar _ _ eq_refl Ek) as [q Hq]. destruct (Hka _ _ Hq) as (p & m & Hh & _ & Hm).
    rewrite <-(proj1 Hst). by rewrite (tk_syms _ _ _ _ _ _ _ Ht _ _ _ _ Hq Hh Hm). }
  assert (names_package ti i = None) as ->.
  { unfold names_package. destruct (ti_uses ti (id_ptr i)) as [o|] eqn:E; [|done]. destruct (o_kind o) eqn:Ek; try done. by destruct (Hn _ _ eq_refl Ek). }
  by destruct (String.eqb_spec (id_name i) "_").
Qed.
Lemma no_switch_none ti i : no_switch ti i → switch_object ti i = None.
Proof.
  intros H. unfold switch_object. destruct (List.find _ _) as [c|] eqn:E; [|done].
  apply find_some in E as [E1 E2]. apply Z.eqb_eq in E2. exfalso. apply elem_of_list_In in E1. by apply (H c).
Qed.

(** C58: identifier i1 defines an object; i2, after it in the same file, uses the object: the definition
    occurrence at i1 and the reference occurrence at i2 have the same symbol. *)
Theorem C58_navigation_in_file : ∀ P msgs p f ti l1 par1 i1 l2 par2 i2 l3 d o tp,
  indexed P msgs → p ∈ pr_pkgs P → f ∈ p_syntax p → p_info p = Some ti →
  file_nodes f = l1 ++ (par1, NIdent i1) :: l2 ++ (par2, NIdent i2) :: l3 →
  visible P ti par1 i1 → visible P ti par2 i2 → no_switch ti i1 → no_switch ti i2 →
  ti_defs ti (id_ptr i1) = Some d → ti_uses ti (id_ptr i2) = Some o →
  (** the same object *)
  o_pos o = o_pos d → o_pkg o = Some tp → tp_path tp = p_path p → p_path p ≠ "unsafe" → o_kind o ≠ OLabel → o_kind o ≠ ONil →
  ∃ s, defines P msgs p f i1 s ∧ refers P msgs p f i2 s.
Proof.
  intros P msgs p f ti l1 par1 i1 l2 par2 i2 l3 d o tp
    (digest & objstr & mo & root & version & impl & ie & po & ao & po2 & skip & meta & w & Hix & Hmo & H1 & H2 & H3 & Hic & Hrun)
    Hp Hf Hti Hsplit V1 V2 S1 S2 Hd Hu Hpos Hpk Htp Hun Hk1 Hk2.
  pose proof Hix as Hix'. destruct P as [env objs fs h all proj ps]. cbn in *.
  destruct (success digest env objs fs h objstr mo root version all proj ps impl ie po ao po2 skip meta w Hix Hmo H1 H2 H3 Hic msgs Hrun) as (ds & exts & g0 & g & kk & -> & Htab & _ & Hst & Hds).
  assert ((p, f) ∈ files_in_order ps) as [n Hi]%elem_of_list_lookup by by apply files_elem.
  destruct (Forall2_lookup_l _ _ _ _ _ Hds Hi) as (dd & Hdn & Hdoc). cbn in Hdoc.
  destruct Hdoc as (ti' & tbl & st & sym & name & torder & lorder & Hti' & Hname & Hg' & _ & Hv & Hto & Hlo & ->).
  assert (ti' = ti) as -> by congruence.
  destruct (tpj_info _ _ _ _ (ix_typed _ _ _ _ _ _ Hix) p f Hp Hf) as (ti' & name' & Hti2 & Htf & Hdi & _).
  assert (ti' = ti) as -> by congruence.
  pose proof (visible_plain (Project env objs fs h all proj ps) digest g0 g ti par1 i1 (ix_loaded _ _ _ _ _ _ Hix) Htab Hst V1) as P1.
  pose proof (visible_plain (Project env objs fs h all proj ps) digest g0 g ti par2 i2 (ix_loaded _ _ _ _ _ _ Hix) Htab Hst V2) as P2.
  apply no_switch_none in S2 as S2'. apply no_switch_none in S1 as S1'.
  assert (E1 : (par1, NIdent i1) ∈ file_nodes f) by (rewrite Hsplit, elem_of_app, elem_of_cons; auto).
  assert (E2 : (par2, NIdent i2) ∈ file_nodes f) by (rewrite Hsplit, elem_of_app, elem_of_cons, elem_of_app, elem_of_cons; auto).
  assert (Hat : o_pos d = id_pos i1) by (eapply (proj1 Hdi); [|exact Hd]; change (NIdent i1) with (snd (par1, NIdent i1)); by eapply file_nodes_sub).
  destruct (tbl !! o_pos d) as [info|] eqn:Et.
  - destruct (C11_package_level env objs root version g fs p ti tbl (imports_of h p) _ f st fs p ti tbl (imports_of h p) _ f st par1 i1 d par2 i2 o tp info
      Htf Htf Hv Hv) as (def & ref & A1 & A2 & A3 & A4 & A5 & A6 & A7 & A8); try done.
    { by exists p. }
    { eapply C11_same_package_not_local; [exact Et|]. intros c Hc. rewrite Hat. by apply S1. }
    exists (i_symbol info). split; [eexists _, def|eexists _, ref]; (split; [exists n; rewrite documents_msgs; done|split; [cbn [to_document d_occs]; assumption|split; [first [exact A2|exact A5]|split; [congruence|first [exact A3|exact A6]]]]]).
  - destruct (C11_local env objs root version g fs p ti tbl (imports_of h p) _ f st l1 (par1, NIdent i1) l2 par2 i2 l3 (o_pos d) d o
      Htf Hv Hsplit) as (def & ref & i & Ei & A1 & A2 & A3 & A4 & A5 & A6 & A7 & _); try done.
    { unfold local_def. rewrite P1, S1', Hd. unfold registered. by rewrite Et, Hg', Et. }
    cbn in Ei. injection Ei as <-.
    exists (oc_symbol ref). split; [eexists _, def|eexists _, ref]; (split; [exists n; rewrite documents_msgs; done|split; [cbn [to_document d_occs]; assumption|split; [first [exact A2|exact A5]|split; [congruence|first [exact A3|exact A6]]]]]).
Qed.
Print Assumptions C58_navigation_in_file.

(** The variable of a type switch: x in [switch x := y.(type)] is the definition for the objects of
    all clauses, which go/types places at the position of x. *)
Theorem C58_type_switch : ∀ P msgs p f ti l1 par1 i1 l2 par2 i2 l3 c o,
  indexed P msgs → p ∈ pr_pkgs P → f ∈ p_syntax p → p_info p = Some ti →
  file_nodes f = l1 ++ (par1, NIdent i1) :: l2 ++ (par2, NIdent i2) :: l3 →
  visible P ti par1 i1 → visible P ti par2 i2 → no_switch ti i2 →
  c ∈ ti_case_objs ti → o_pos c = id_pos i1 →
  ti_uses ti (id_ptr i2) = Some o → o_pos o = id_pos i1 →
  ∃ s, is_local s ∧ defines P msgs p f i1 s ∧ refers P msgs p f i2 s.
Proof.
  intros P msgs p f ti l1 par1 i1 l2 par2 i2 l3 c o
    (digest & objstr & mo & root & version & impl & ie & po & ao & po2 & skip & meta & w & Hix & Hmo & H1 & H2 & H3 & Hic & Hrun)
    Hp Hf Hti Hsplit V1 V2 S2 Hc Hcp Hu Hpos.
  destruct P as [env objs fs h all proj ps]. cbn in *.
  destruct (success digest env objs fs h objstr mo root version all proj ps impl ie po ao po2 skip meta w Hix Hmo H1 H2 H3 Hic msgs Hrun) as (ds & exts & g0 & g & kk & -> & Htab & _ & Hst & Hds).
  assert ((p, f) ∈ files_in_order ps) as [n Hi]%elem_of_list_lookup by by apply files_elem.
  destruct (Forall2_lookup_l _ _ _ _ _ Hds Hi) as (dd & Hdn & Hdoc). cbn in Hdoc.
  destruct Hdoc as (ti' & tbl & st & sym & name & torder & lorder & Hti' & Hname & Hg' & _ & Hv & Hto & Hlo & ->).
  assert (ti' = ti) as -> by congruence.
  destruct (tpj_info _ _ _ _ (ix_typed _ _ _ _ _ _ Hix) p f Hp Hf) as (ti' & name' & Hti2 & Htf & Hdi & _).
  assert (ti' = ti) as -> by congruence.
  pose proof (visible_plain (Project env objs fs h all proj ps) digest g0 g ti par1 i1 (ix_loaded _ _ _ _ _ _ Hix) Htab Hst V1) as P1.
  pose proof (visible_plain (Project env objs fs h all proj ps) digest g0 g ti par2 i2 (ix_loaded _ _ _ _ _ _ Hix) Htab Hst V2) as P2.
  apply no_switch_none in S2 as S2'.
  assert (Hsw : ∃ c', switch_object ti i1 = Some c' ∧ o_pos c' = id_pos i1).
  { unfold switch_object. destruct (List.find _ _) as [c'|] eqn:E.
    - exists c'. split; [done|]. apply find_some in E as [_ E]. by apply Z.eqb_eq in E.
    - exfalso. apply elem_of_list_In in Hc. pose proof (find_none _ _ E _ Hc) as H. cbn in H. apply Z.eqb_neq in H. done. }
  destruct Hsw as (c' & Hsw & Hc').
  destruct (C11_local env objs root version g fs p ti tbl (imports_of h p) _ f st l1 (par1, NIdent i1) l2 par2 i2 l3 (o_pos c') c' o
    Htf Hv Hsplit) as (def & ref & i & Ei & A1 & A2 & A3 & A4 & A5 & A6 & A7 & A8); try done.
  { unfold local_def. by rewrite P1, Hsw. }
  { congruence. }
  cbn in Ei. injection Ei as <-. exists (oc_symbol ref). split; [done|].
  split; [eexists _, def|eexists _, ref]; (split; [exists n; rewrite documents_msgs; done|split; [cbn [to_document d_occs]; assumption|split; [first [exact A2|exact A5]|split; [congruence|first [exact A3|exact A6]]]]]).
Qed.
Print Assumptions C58_type_switch.

(** x := 1 ... return x in the package of ExOcc.v *)
Example C58_example : ∃ s, defines A a_msgs a_p q_file (mk 111 "x" 62) s ∧ refers A a_msgs a_p q_file (mk 114 "x" 79) s.
Proof.
  eapply (C58_navigation_in_file A a_msgs a_p q_file q_ti (take 24 (file_nodes q_file)) (Some (NOther 62 [NIdent (mk 111 "x" 62); NOther 67 []]))
    (mk 111 "x" 62) (take 5 (drop 25 (file_nodes q_file))) _ (mk 114 "x" 79) (drop 31 (file_nodes q_file)) o_x o_x q_tpkg).
  - apply a_indexed.
  - left.
  - left.
  - done.
  - vm_compute. reflexivity.
  - split; [done|]. split; [|done]. intros o pp Hu. vm_compute in Hu. done.
  - split; [done|]. split; [|done]. intros o pp Hu. vm_compute in Hu. by injection Hu as <-.
  - intros c Hc. by apply elem_of_nil in Hc.
  - intros c Hc. by apply elem_of_nil in Hc.
  - done.
  - done.
  - done.
  - done.
  - done.
  - done.
  - done.
  - done.
Qed.
