(** Properties C09-C15, C18, C21, C23, C24: lookups and occurrences.
    Proofs are in P_Lookup, P_Pass2, P_Occ. *)
From Coq Require Import Ascii String.
From stdpp Require Import prelude strings gmap.
From Verif Require Import GoStr Scip GoTypes Ast Packages Symbols Document Lookup Pass1 Pass2
  SpecSymbol SpecDecl SpecLookup SpecOcc P_Symbols P_Pass1 P_Doc P_Lookup P_Pass2 P_Occ ExDecl ExOcc.
Open Scope string_scope.
Open Scope list_scope.

(** C23: whatever lookups and compositions happened before in the process, a
    lookup answers as in a fresh process (and neither panics). *)
Theorem C23_history_independent :
  ∀ env objs g path version (h : list call) o,
  Forall (go_call objs g) h → go_object objs o →
  ∃ k r, after_calls env g path version h = Ok k ∧ answer env g k o = Ok r ∧
    answer env g (fresh_caches path version) o = Ok r.
Proof. exact answer_history. Qed.
Print Assumptions C23_history_independent.
Example C23_ex :
  Forall (go_call q_objs q_g) [CLookup o_int; CLookup o_Println; CCompose q_pkg o_E; CLookup o_int] ∧
  go_object q_objs o_x ∧
  ∃ k, after_calls p_env q_g "ex.org" "v1.0.0" [CLookup o_int; CLookup o_Println; CCompose q_pkg o_E] = Ok k ∧
    k_skipped k ≠ ∅.
Proof.
  assert (H : ∀ ptr o, q_uses ptr = Some o → (∀ p, o_kind o ≠ OPkgName p) → go_object q_objs o) by apply q_go_object.
  split.
  { repeat (apply Forall_cons; split).
    - by apply (H 110).
    - by apply (H 113).
    - split; [by apply (H 105)|]. eexists q_tpkg, q_tbl. split; [done|]. vm_compute. reflexivity.
    - by apply (H 110).
    - constructor. }
  split; [by apply (H 114)|].
  eexists. split; [reflexivity|]. cbn. set_solver.
Qed.

(** C24: after any history the answer is the one the resolution order
    prescribes, and the order prescribes exactly one. *)
Theorem C24_resolution :
  ∀ env objs g path version (h : list call) o,
  Forall (go_call objs g) h → go_object objs o →
  ∃ k r, after_calls env g path version h = Ok k ∧ answer env g k o = Ok r ∧
    resolves env path version g o r ∧
    (∀ r', resolves env path version g o r' → r' = r).
Proof.
  intros env objs g path version h o Hh Ho.
  destruct (answer_history env objs g path version h o Hh Ho) as (k & r & E1 & E2 & E3).
  exists k, r. split_and!; [done|done| |].
  - by apply (answer_resolves env objs g path version o r Ho).
  - intros r' Hr'. apply (answer_resolves env objs g path version o r' Ho) in Hr'. congruence.
Qed.
Print Assumptions C24_resolution.
(** the variable x is not registered, so it gets a composed symbol; F is found *)
Example C24_ex :
  (∃ i, resolves p_env "ex.org" "v1.0.0" q_g o_F (Found i) ∧
        i_symbol i = "scip-go gomod ex.org v1.0.0 `ex.org/p`/F()." ∧ i_documentation i ≠ []) ∧
  resolves p_env "ex.org" "v1.0.0" q_g o_Println
    (Found (bare_info "scip-go gomod github.com/golang/go/src go1.25 fmt/Println().")) ∧
  resolves p_env "ex.org" "v1.0.0" q_g o_int Skip.
Proof.
  split_and!.
  - eexists. split.
    + eapply (rs_own _ _ _ _ _ q_tpkg); try done. eexists _, _. split; vm_compute; reflexivity.
    + split; [vm_compute; reflexivity|vm_compute; discriminate].
  - assert (Hno : ∀ id, id = "fmt" ∨ id = "fmt.test" ∨ id = "fmt [fmt.test]" → unrecorded q_g id 5000).
    { intros id Hid i (p & t & H1 & H2).
      destruct Hid as [->| [->| ->]]; vm_compute in H1; try discriminate. injection H1 as <- <-. discriminate. }
    change (resolves p_env "ex.org" "v1.0.0" q_g o_Println
      (Found (bare_info (composed p_env "ex.org" "v1.0.0" fmt_pkg o_Println)))).
    eapply (rs_composed _ _ _ _ _ fmt_tpkg fmt_pkg ∅); try done; try (apply Hno; tauto).
  - by constructor 2.
Qed.

(** C13: the occurrences of a visited file are the package clause followed by,
    for every node below it in source order, what [node_occs] (SpecOcc.v)
    prescribes for that node, with lookups answered correctly. *)
Theorem C13_occurrences :
  ∀ env objs path version g fs pkg ti tbl imports pkg_occ f lookup st,
  typed_file fs ti imports objs f → answers env path version g ti lookup →
  visited env objs path version g fs pkg ti tbl imports pkg_occ f st →
  f_occs st = pkg_occ :: nodes_occs g fs pkg ti tbl imports lookup [] (file_nodes f).
Proof.
  intros env objs path version g fs pkg ti tbl imports pkg_occ f lookup st Ht Ha Hv.
  by destruct (visited_occs env objs path version g fs pkg ti tbl imports pkg_occ f lookup Ht Ha st Hv) as (_ & H & _).
Qed.
Print Assumptions C13_occurrences.
(** the nodes of a file: all nodes of its declarations once each, in
    ast.Inspect order, each with its parent *)
Theorem C13_nodes_in_source_order : ∀ f,
  map snd (file_nodes f) = List.concat (map subnodes (file_decls f)) ∧
  (∀ par m, (par, m) ∈ file_nodes f → (par = Some f ∧ m ∈ file_decls f) ∨
     ∃ n, par = Some n ∧ m ∈ node_children n ∧ ∃ decl, decl ∈ file_decls f ∧ n ∈ subnodes decl).
Proof.
  intros f. split.
  - unfold file_nodes. generalize (file_decls f). induction l as [|d l IH]; [done|].
    cbn. rewrite List.map_app, with_parent_snd, IH. done.
  - intros par m (decl & Hd & H)%elem_of_concat_map. apply with_parent_elem in H as [[-> ->]|(n & -> & Hn & Hm)].
    + left. done.
    + right. exists n. split; [done|]. split; [done|]. by exists decl.
Qed.
Print Assumptions C13_nodes_in_source_order.
Lemma q_visited : ∃ st, visited p_env q_objs "ex.org" "v1.0.0" q_g p_fs q_pkg q_ti q_tbl q_imports q_pkg_occ q_file st ∧ f_occs st = q_doc.
Proof.
  destruct (visit_no_panic p_env q_objs "ex.org" "v1.0.0" q_g p_fs q_pkg q_ti q_tbl q_imports q_pkg_occ q_file
    (lk p_env "ex.org" "v1.0.0" q_g) q_typed (lk_answers _ _ _ _ _ _ _ _ _ q_typed) []) as (k & st & E1 & E2);
    [constructor|by eapply locals_nodup; [apply q_typed|apply q_defs_at]|].
  exists st. split; [by exists [], k; split; [constructor|]|].
  injection E1 as <-. unfold q_doc. by rewrite E2.
Qed.
Example C13_ex : typed_file p_fs q_ti q_imports q_objs q_file ∧
  (∃ st, visited p_env q_objs "ex.org" "v1.0.0" q_g p_fs q_pkg q_ti q_tbl q_imports q_pkg_occ q_file st ∧ f_occs st = q_doc) ∧
  (∃ lookup, answers p_env "ex.org" "v1.0.0" q_g q_ti lookup) ∧ length q_doc = 14.
Proof.
  split; [apply q_typed|]. split; [apply q_visited|]. split.
  - eexists. eapply lk_answers, q_typed.
  - pose proof q_doc_view as H. unfold q_view in H. apply (f_equal length) in H. by rewrite map_length in H.
Qed.

(** C21: after any history, visiting a type-checked file does not panic. *)
Theorem C21_no_panic :
  ∀ env objs path version g fs pkg ti tbl imports pkg_occ f (h : list call),
  typed_file fs ti imports objs f → defs_at_idents ti f → Forall (go_call objs g) h →
  ∃ k st, after_calls env g path version h = Ok k ∧
    visit_file env g fs pkg ti tbl imports pkg_occ k f = Ok st.
Proof.
  intros env objs path version g fs pkg ti tbl imports pkg_occ f h Ht Hd Hh.
  eapply visit_no_panic; [done|by eapply lk_answers|done|]. by eapply locals_nodup.
Qed.
Print Assumptions C21_no_panic.
(** exactly: it panics iff two locals are defined at one position *)
Theorem C21_panics_iff :
  ∀ env objs path version g fs pkg ti tbl imports pkg_occ f (h : list call) k,
  typed_file fs ti imports objs f → Forall (go_call objs g) h → after_calls env g path version h = Ok k →
  ((∃ m, visit_file env g fs pkg ti tbl imports pkg_occ k f = Panic m) ↔
   ¬ NoDup (map fst (local_defs g pkg ti tbl f))).
Proof.
  intros env objs path version g fs pkg ti tbl imports pkg_occ f h k Ht Hh Hk. split.
  - intros (m & E) N.
    destruct (visit_no_panic env objs path version g fs pkg ti tbl imports pkg_occ f _ Ht (lk_answers _ _ _ _ _ _ _ _ _ Ht) h Hh N)
      as (k' & st & E1 & E2). congruence.
  - intros N. eapply visit_panic; [done|by eapply lk_answers|done..].
Qed.
Print Assumptions C21_panics_iff.
Example C21_ex : typed_file p_fs q_ti q_imports q_objs q_file ∧ defs_at_idents q_ti q_file.
Proof. split; [apply q_typed|apply q_defs_at]. Qed.
(** a package name used outside a qualified identifier ("use of package without
    selector", a type error that does not stop indexing) panics *)
Theorem C21_bare_package_name_refuted :
  ∃ env path version g fs pkg ti tbl imports pkg_occ f i o p,
  f = NFile 1 false "" (mk 100 "p" 9) [NFuncDecl "" 30 50 None (mk 103 "F" 35)
        (NFuncType 30 (NFieldList []) (NFieldList []) (NFieldList [])) (Some (NBlockStmt 40 [NOther 42 [NIdent i]]))] ∧
  ti_uses ti (id_ptr i) = Some o ∧ o_kind o = OPkgName p ∧
  visit_file env g fs pkg ti tbl imports pkg_occ (fresh_caches path version) f
    = Panic "should never lookup PkgName".
Proof.
  exists p_env, "ex.org", "v1.0.0", q_g, p_fs, q_pkg, q_ti, q_tbl, q_imports, q_pkg_occ.
  eexists. exists (mk 112 "f" 42), o_fmt, "fmt". split; [reflexivity|]. split; [reflexivity|].
  split; [reflexivity|]. vm_compute. reflexivity.
Qed.
Print Assumptions C21_bare_package_name_refuted.

(** C09: the locals of a document are "local 0" .. "local n-1": defined in this
    order, one definition and one symbol-information entry each, and no other
    local symbol occurs.  [torder], [lorder]: map iteration orders. *)
Theorem C09_locals :
  ∀ env objs path version g fs pkg ti tbl imports pkg_occ f st objstr rel file torder lorder,
  typed_file fs ti imports objs f → global_symbols g tbl → is_global (oc_symbol pkg_occ) →
  visited env objs path version g fs pkg ti tbl imports pkg_occ f st →
  torder ≡ₚ map_to_list tbl → lorder ≡ₚ map_to_list (f_locals st) →
  let d := to_document env fs ti objstr rel file torder lorder st in
  ∃ n,
    map oc_symbol (filter (λ o, is_def o ∧ is_local (oc_symbol o)) (d_occs d)) = map local_name (List.seq 0 n) ∧
    filter is_local (map i_symbol (d_symbols d)) ≡ₚ map local_name (List.seq 0 n) ∧
    (∀ o, o ∈ d_occs d → is_local (oc_symbol o) → ∃ k, k < n ∧ oc_symbol o = local_name k) ∧
    NoDup (map fst (local_defs g pkg ti tbl f)) ∧ n = length (local_defs g pkg ti tbl f).
Proof.
  intros env objs path version g fs pkg ti tbl imports pkg_occ f st objstr rel file torder lorder
    Ht Hg Hpo Hv Hto Hlo d.
  pose proof (lk_answers env _ path version g _ _ _ _ Ht) as Ha.
  destruct (visited_occs _ _ _ _ _ _ _ _ _ _ _ _ _ Ht Ha st Hv) as (Hnd & Ho & Hinv).
  exists (length (local_defs g pkg ti tbl f)). cbn. rewrite Ho. split_and!; [| | |done|done].
  - pose proof (nsoccs_lds env path version g fs pkg ti tbl imports _ Ha Hg (file_nodes f) []) as H.
    cbn in H. fold (local_defs g pkg ti tbl f) in H. rewrite <- H. clear H. unfold local_def_symbols.
    rewrite filter_cons_False by (intros [_ ?]; by eapply global_not_local).
    generalize (nodes_occs g fs pkg ti tbl imports (lk env path version g) [] (file_nodes f)).
    induction l as [|o l IH]; [done|]. destruct (decide (is_def o)) as [Hd|Hd].
    + rewrite (filter_cons_True is_def) by done. cbn [map].
      destruct (decide (is_local (oc_symbol o))) as [Hl|Hl].
      * rewrite (filter_cons_True (λ o, is_def o ∧ is_local (oc_symbol o))) by done.
        rewrite filter_cons_True by done. cbn [map]. by rewrite IH.
      * rewrite (filter_cons_False (λ o, is_def o ∧ is_local (oc_symbol o))) by tauto.
        by rewrite filter_cons_False by done.
    + rewrite (filter_cons_False is_def) by done.
      by rewrite (filter_cons_False (λ o, is_def o ∧ is_local (oc_symbol o))) by tauto.
  - rewrite List.map_app, !List.map_map, filter_app.
    assert (filter is_local (map (λ x : Z * syminfo, i_symbol x.2) (symbols_for_file fs file torder)) = []) as ->.
    { assert (H : ∀ e, e ∈ symbols_for_file fs file torder → is_global (i_symbol e.2)).
      { intros [p i] He. unfold symbols_for_file in He. apply elem_of_list_filter in He as [_ He].
        rewrite Hto in He. apply elem_of_map_to_list in He. by apply (proj1 Hg) in He. }
      revert H. generalize (symbols_for_file fs file torder). induction l as [|e l IH]; intros H; [done|].
      cbn [map]. rewrite filter_cons_False; [|apply global_not_local, H; left]. apply IH. intros. apply H. by right. }
    cbn. rewrite <- (locals_symbols env objs path version g _ st Hinv Hnd). rewrite <- Hlo.
    assert (filter is_local (map (λ x : Z * local, l_symbol x.2) lorder) = map (λ x, l_symbol x.2) lorder) as H.
    { assert (Hl : ∀ e, e ∈ lorder → is_local (l_symbol e.2)).
      { intros [p l] He. rewrite Hlo in He. apply elem_of_map_to_list in He.
        rewrite (iv_locals _ _ _ _ _ _ _ Hinv) in He. destruct (index_of p _) as [k|]; [|done].
        destruct (_ !! k); [|done]. injection He as <-. apply local_name_local. }
      clear -Hl. induction lorder as [|e l IH]; [done|]. cbn [map].
      rewrite filter_cons_True by (apply Hl; left). f_equal. apply IH. intros. apply Hl. by right. }
    by rewrite H.
  - intros o Hin Hl. rewrite elem_of_cons in Hin. destruct Hin as [->|Hin]; [by apply global_not_local in Hpo|].
    apply (nsoccs_symbols env path version g fs pkg ti tbl imports _ Ha Hg) in Hin
      as [Hin|(k & Hk & Hin)]; [by apply global_not_local in Hin|]. by exists k.
Qed.
Print Assumptions C09_locals.
Lemma q_global : global_symbols q_g q_tbl.
Proof.
  pose proof (table_global _ _ _ _ _ _ q_table) as H. split; [done|]. split.
  - intros id p t pos i Hid Hp. unfold q_g, set_pkg_symbol in Hid. cbn in Hid.
    rewrite !lookup_insert_Some in Hid.
    repeat (destruct Hid as [[_ [= <- <-]]|[_ Hid]]; [first [by rewrite lookup_empty in Hp|by apply (H pos)]|]).
    by rewrite lookup_empty in Hid.
  - intros id s Hid. unfold q_g, set_pkg_symbol in Hid. cbn in Hid. rewrite !lookup_insert_Some in Hid.
    destruct Hid as [[_ <-]|[_ Hid]]; [vm_compute; reflexivity|].
    destruct Hid as [[_ <-]|[_ Hid]]; [vm_compute; reflexivity|]. by rewrite lookup_empty in Hid.
Qed.
Example C09_ex : typed_file p_fs q_ti q_imports q_objs q_file ∧ global_symbols q_g q_tbl ∧
  is_global (oc_symbol q_pkg_occ) ∧ length (local_defs q_g q_pkg q_ti q_tbl q_file) = 4.
Proof. split; [apply q_typed|]. split; [apply q_global|]. split; [done|]. vm_compute. reflexivity. Qed.

(** C10: every definition occurrence after the package clause is described by a
    symbol-information entry of the same document. *)
Theorem C10_definitions_described :
  ∀ env objs path version g fs pkg ti tbl imports pkg_occ f st objstr rel file torder lorder,
  typed_file fs ti imports objs f → defs_at_idents ti f → own_table g pkg tbl →
  (∀ i, NIdent i ∈ subnodes f → fs_file fs (id_pos i) = Some file) →
  visited env objs path version g fs pkg ti tbl imports pkg_occ f st →
  torder ≡ₚ map_to_list tbl → lorder ≡ₚ map_to_list (f_locals st) →
  let d := to_document env fs ti objstr rel file torder lorder st in
  ∃ occs, d_occs d = pkg_occ :: occs ∧
    ∀ o, o ∈ occs → is_def o → ∃ i, i ∈ d_symbols d ∧ i_symbol i = oc_symbol o.
Proof.
  intros env objs path version g fs pkg ti tbl imports pkg_occ f st objstr rel file torder lorder
    Ht Hdi (pp & Hown) Hfile Hv Hto Hlo d.
  pose proof (lk_answers env _ path version g _ _ _ _ Ht) as Ha.
  destruct (visited_occs _ _ _ _ _ _ _ _ _ _ _ _ _ Ht Ha st Hv) as (Hnd & Ho & Hinv).
  eexists. split; [exact Ho|]. intros o Hin Hdef.
  apply nsoccs_explained in Hin as (l1 & e & l2 & Hsplit & He).
  assert (He' : snd e ∈ subnodes f).
  { eapply file_nodes_sub; [exact Ht|]. rewrite Hsplit. apply elem_of_app. right. left. }
  destruct He as [ptr nm p lit o Hn Hi|i u pth sym Hn _ _|i p u encl Hn Hld _|i def info Hn _ Hd Hr|i u k Hn _ _ _|i u info Hn _ _ _].
  - exfalso. unfold import_refs in Hi. destruct (ti_pkgname_of ti ptr) as [po|]; [|by apply elem_of_nil in Hi].
    destruct (o_kind po); try by apply elem_of_nil in Hi.
    destruct (imports imported_path); [|by apply elem_of_nil in Hi].
    destruct (g_pkgsyms g !! _); [|by apply elem_of_nil in Hi].
    apply elem_of_app in Hi as [Hi|Hi]; [|by apply elem_of_list_singleton in Hi as ->].
    destruct nm as [j|]; [|by apply elem_of_nil in Hi].
    destruct (_ || _)%bool; [by apply elem_of_nil in Hi|by apply elem_of_list_singleton in Hi as ->].
  - done.
  - assert (Hk : local_defs g pkg ti tbl f !! length (omap (local_def g pkg ti tbl) l1) = Some (p, u)).
    { unfold local_defs. rewrite Hsplit, omap_app. rewrite lookup_app_r by lia. rewrite Nat.sub_diag.
      unfold omap. cbn. by rewrite Hld. }
    pose proof (index_of_lookup _ _ _ _ Hnd Hk) as Hix.
    assert (Hl : f_locals st !! p = Some (Local (local_name (length (omap (local_def g pkg ti tbl) l1))) u)).
    { rewrite (iv_locals _ _ _ _ _ _ _ Hinv), Hix, Hk. done. }
    eexists. split.
    + cbn. apply elem_of_app. right. apply elem_of_list_fmap. exists (p, Local (local_name (length (omap (local_def g pkg ti tbl) l1))) u).
      split; [reflexivity|]. rewrite Hlo. by apply elem_of_map_to_list.
    + done.
  - exists info. split; [|done]. cbn. apply elem_of_app. left. apply elem_of_list_fmap.
    exists (o_pos def, info). split; [done|]. unfold symbols_for_file. apply elem_of_list_filter. split.
    + cbn. rewrite Hn in He'. rewrite (proj1 Hdi _ _ He' Hd). by apply Hfile.
    + rewrite Hto. apply elem_of_map_to_list. unfold registered in Hr. rewrite Hown in Hr.
      destruct (tbl !! o_pos def); congruence.
  - done.
  - done.
Qed.
Print Assumptions C10_definitions_described.
Example C10_ex : defs_at_idents q_ti q_file ∧ own_table q_g q_pkg q_tbl ∧
  (∀ i, NIdent i ∈ subnodes q_file → fs_file p_fs (id_pos i) = Some "p.go").
Proof.
  split; [apply q_defs_at|]. split; [apply q_own|]. intros i Hi. rewrite <- elem_of_node_idents in Hi.
  enum Hi; subst i; reflexivity.
Qed.

(** C11, package-level part: identifier [i1] of file [f1] defines an object whose
    declaration was recorded; identifier [i2] of any file [f2] (of any project
    package) uses the same object.  Then the definition and the reference carry
    the same symbol, that of the recorded entry. *)
Theorem C11_package_level :
  ∀ env objs path version g
    fs1 pkg1 ti1 tbl1 imports1 po1 f1 st1 fs2 pkg2 ti2 tbl2 imports2 po2 f2 st2 par1 i1 d par2 i2 o tp info,
  typed_file fs1 ti1 imports1 objs f1 → typed_file fs2 ti2 imports2 objs f2 →
  visited env objs path version g fs1 pkg1 ti1 tbl1 imports1 po1 f1 st1 →
  visited env objs path version g fs2 pkg2 ti2 tbl2 imports2 po2 f2 st2 →
  own_table g pkg1 tbl1 → tbl1 !! o_pos d = Some info →
  (par1, NIdent i1) ∈ file_nodes f1 → plain_ident g ti1 (par1, NIdent i1) = Some i1 →
  switch_object ti1 i1 = None → ti_defs ti1 (id_ptr i1) = Some d →
  (par2, NIdent i2) ∈ file_nodes f2 → plain_ident g ti2 (par2, NIdent i2) = Some i2 →
  switch_object ti2 i2 = None → ti_uses ti2 (id_ptr i2) = Some o →
  o_pos o = o_pos d → o_pkg o = Some tp → tp_path tp = p_path pkg1 → p_path pkg1 ≠ "unsafe" →
  o_kind o ≠ OLabel → o_kind o ≠ ONil →
  o_pos d ∉ map fst (local_defs g pkg2 ti2 tbl2 f2) →
  ∃ def ref, def ∈ f_occs st1 ∧ oc_roles def = 1 ∧ oc_range def = ident_span fs1 i1 ∧
    ref ∈ f_occs st2 ∧ oc_roles ref = 8 ∧ oc_range ref = ident_span fs2 i2 ∧
    oc_symbol def = i_symbol info ∧ oc_symbol ref = i_symbol info.
Proof.
  intros env objs path version g fs1 pkg1 ti1 tbl1 imports1 po1 f1 st1 fs2 pkg2 ti2 tbl2 imports2 po2 f2 st2
    par1 i1 d par2 i2 o tp info Ht1 Ht2 Hv1 Hv2 (pp & Hown) Hinfo H1 Hp1 Hs1 Hd1 H2 Hp2 Hs2 Hu2 Hpos Hpkg Hpath Hun Hk1 Hk2 Hnl.
  pose proof (lk_answers env _ path version g _ _ _ _ Ht1) as Ha1.
  pose proof (lk_answers env _ path version g _ _ _ _ Ht2) as Ha2.
  destruct (visited_occs _ _ _ _ _ _ _ _ _ _ _ _ _ Ht1 Ha1 st1 Hv1) as (_ & Ho1 & _).
  destruct (visited_occs _ _ _ _ _ _ _ _ _ _ _ _ _ Ht2 Ha2 st2 Hv2) as (_ & Ho2 & _).
  apply elem_of_list_split in H1 as (a1 & b1 & E1). apply elem_of_list_split in H2 as (a2 & b2 & E2).
  eexists _, _. rewrite Ho1, Ho2, E1, E2. split_and!.
  - right. apply nsoccs_elem. eexists a1, _, b1. split; [done|].
    eapply def_occ; [done|done|done|]. unfold registered. by rewrite Hinfo.
  - done.
  - done.
  - right. apply nsoccs_elem. eexists a2, _, b2. split; [done|].
    pose proof (use_occ g fs2 pkg2 ti2 tbl2 imports2 (lk env path version g)
      ([] ++ omap (local_def g pkg2 ti2 tbl2) a2) par2 i2 o Hp2 Hs2 Hu2) as H. cbn zeta in H.
    assert (index_of (o_pos o) (([] ++ omap (local_def g pkg2 ti2 tbl2) a2) ++ option_list (local_def g pkg2 ti2 tbl2 (par2, NIdent i2))) = None) as Hix.
    { apply index_of_none. rewrite Hpos. intros Hin. apply Hnl. unfold local_defs. rewrite E2, omap_app, List.map_app.
      cbn in Hin. rewrite List.map_app in Hin. apply elem_of_app in Hin as [Hin|Hin]; apply elem_of_app; [by left|right].
      unfold omap. cbn. destruct (local_def g pkg2 ti2 tbl2 (par2, NIdent i2)); cbn in *; [|by apply elem_of_nil in Hin].
      apply elem_of_list_singleton in Hin as ->. left. }
    rewrite Hix in H. apply (H info).
    pose proof (plain_ident_node _ _ _ _ _ Hp2) as (_ & _ & Hn & _).
    pose proof (names_package_none _ _ _ Hn Hu2) as Hpn.
    pose proof (tf_uses _ _ _ _ _ Ht2 _ _ Hu2 Hpn) as Hgo.
    assert (Hr : resolves env path version g o (Found info)).
    { eapply rs_own; [done|done|exact Hpkg|by rewrite Hpath|]. rewrite Hpath, Hpos. by exists pp, tbl1. }
    apply (answer_resolves env objs g path version o _ Hgo) in Hr. unfold lk. by rewrite Hr.
  - done.
  - done.
  - done.
  - done.
Qed.
Print Assumptions C11_package_level.
(** in the same package the last hypothesis holds of itself *)
Theorem C11_same_package_not_local :
  ∀ g pkg ti tbl f pos info,
  tbl !! pos = Some info → (∀ o, o ∈ ti_case_objs ti → o_pos o ≠ pos) →
  pos ∉ map fst (local_defs g pkg ti tbl f).
Proof.
  intros g pkg ti tbl f pos info Hinfo Hcase ([p o] & -> & Hin)%elem_of_list_fmap.
  unfold local_defs in Hin. apply elem_of_list_omap in Hin as (e & _ & He).
  apply ldef_registered in He as [(i & _ & Hs & Hp)|Hr].
  - unfold switch_object in Hs. apply find_some in Hs as [Hs1 Hs2]. apply Z.eqb_eq in Hs2.
    apply (Hcase o); [by apply elem_of_list_In|]. cbn. congruence.
  - unfold registered in Hr. cbn in Hinfo. by rewrite Hinfo in Hr.
Qed.
Print Assumptions C11_same_package_not_local.
(** in different files: positions of the using file's identifiers are not the
    position of the definition *)
Theorem C11_other_file_not_local :
  ∀ fs imports objs g pkg ti tbl f pos,
  typed_file fs ti imports objs f → defs_at_idents ti f →
  (∀ i, NIdent i ∈ subnodes f → id_pos i ≠ pos) →
  pos ∉ map fst (local_defs g pkg ti tbl f).
Proof.
  intros fs imports objs g pkg ti tbl f pos Ht [Hdi _] Hne ([p o] & -> & Hin)%elem_of_list_fmap.
  unfold local_defs in Hin. apply elem_of_list_omap in Hin as (e & He & Hl).
  assert (Hsub : snd e ∈ subnodes f) by (by eapply file_nodes_sub).
  destruct (local_def_pos g pkg ti tbl f _ _ _ Hl Hsub Hdi) as (i & Hi & ->).
  rewrite Hi in Hsub. by apply (Hne i).
Qed.
Print Assumptions C11_other_file_not_local.

(** C11, local part: a node defining a local, and later in the same file an
    identifier using it. *)
Theorem C11_local :
  ∀ env objs path version g fs pkg ti tbl imports po f st l1 e1 l2 par2 i2 l3 p u o,
  typed_file fs ti imports objs f → visited env objs path version g fs pkg ti tbl imports po f st →
  file_nodes f = l1 ++ e1 :: l2 ++ (par2, NIdent i2) :: l3 →
  local_def g pkg ti tbl e1 = Some (p, u) →
  plain_ident g ti (par2, NIdent i2) = Some i2 → switch_object ti i2 = None →
  ti_uses ti (id_ptr i2) = Some o → o_pos o = p →
  ∃ def ref i1, snd e1 = NIdent i1 ∧
    def ∈ f_occs st ∧ oc_roles def = 1 ∧ oc_range def = ident_span fs i1 ∧
    ref ∈ f_occs st ∧ oc_roles ref = 8 ∧ oc_range ref = ident_span fs i2 ∧
    oc_symbol def = oc_symbol ref ∧ is_local (oc_symbol ref).
Proof.
  intros env objs path version g fs pkg ti tbl imports po f st l1 e1 l2 par2 i2 l3 p u o
    Ht Hv Hsplit Hld Hp2 Hs2 Hu Hpos.
  pose proof (lk_answers env _ path version g _ _ _ _ Ht) as Ha.
  destruct (visited_occs _ _ _ _ _ _ _ _ _ _ _ _ _ Ht Ha st Hv) as (Hnd & Ho & _).
  pose (ld := local_def g pkg ti tbl). pose (k := length (omap ld l1)).
  destruct (ldef_occ g fs pkg ti tbl imports (lk env path version g) ([] ++ omap ld l1) e1 p u Hld)
    as (i1 & encl & Hi1 & Hocc).
  eexists _, _, i1. rewrite Ho. split_and!.
  - done.
  - right. apply nsoccs_elem. exists l1, e1, (l2 ++ (par2, NIdent i2) :: l3). split; [done|]. exact Hocc.
  - done.
  - done.
  - right. apply nsoccs_elem. exists (l1 ++ e1 :: l2), (par2, NIdent i2), l3.
    split; [by rewrite Hsplit, <- List.app_assoc|].
    pose proof (use_occ g fs pkg ti tbl imports (lk env path version g)
      ([] ++ omap ld (l1 ++ e1 :: l2)) par2 i2 o Hp2 Hs2 Hu) as H. cbn zeta in H.
    assert (index_of (o_pos o) (([] ++ omap ld (l1 ++ e1 :: l2)) ++ option_list (local_def g pkg ti tbl (par2, NIdent i2))) = Some k) as Hix.
    { subst p. rewrite index_of_app.
      assert (index_of (o_pos o) ([] ++ omap ld (l1 ++ e1 :: l2)) = Some k) as ->; [|done].
      cbn. unfold local_defs in Hnd. rewrite Hsplit in Hnd.
      rewrite omap_app in Hnd. rewrite omap_app. rewrite index_of_app.
      assert (index_of (o_pos o) (omap ld l1) = None) as ->.
      { apply index_of_none. intros Hin. rewrite List.map_app in Hnd. apply NoDup_app in Hnd as (_ & Hnd & _).
        apply (Hnd _ Hin). unfold omap. cbn. rewrite Hld. left. }
      assert (omap ld (e1 :: l2) = (o_pos o, u) :: omap ld l2) as -> by (unfold omap; cbn; by unfold ld at 1; rewrite Hld).
      cbn. rewrite Z.eqb_refl. cbn. by rewrite Nat.add_0_r. }
    rewrite Hix in H. exact H.
  - done.
  - done.
  - cbn. done.
  - apply local_name_local.
Qed.
Print Assumptions C11_local.
(** func F(...) defines F; x := 1 defines x, later used *)
Example C11_ex :
  (∃ par1 info, (par1, NIdent (mk 103 "F" 35)) ∈ file_nodes q_file ∧
     plain_ident q_g q_ti (par1, NIdent (mk 103 "F" 35)) = Some (mk 103 "F" 35) ∧
     ti_defs q_ti 103 = Some o_F ∧ q_tbl !! o_pos o_F = Some info) ∧
  (∃ l1 e1 l2 par2 l3, file_nodes q_file = l1 ++ e1 :: l2 ++ (par2, NIdent (mk 114 "x" 79)) :: l3 ∧
     local_def q_g q_pkg q_ti q_tbl e1 = Some (62%Z, o_x) ∧
     plain_ident q_g q_ti (par2, NIdent (mk 114 "x" 79)) = Some (mk 114 "x" 79) ∧
     ti_uses q_ti 114 = Some o_x).
Proof.
  split.
  - eexists _, _. split_and!.
    + rewrite elem_of_list_In. cbn. do 4 right. left. reflexivity.
    + vm_compute. reflexivity.
    + reflexivity.
    + vm_compute. reflexivity.
  - exists (take 24 (file_nodes q_file)), (Some (NOther 62 [NIdent (mk 111 "x" 62); NOther 67 []]), NIdent (mk 111 "x" 62)).
    eexists (take 5 (drop 25 (file_nodes q_file))), _, (drop 31 (file_nodes q_file)).
    split_and!; vm_compute; reflexivity.
Qed.

(** C12 fails: a reference that precedes the definition of its local never
    carries the local's symbol ... *)
Theorem C12_forward_reference_refuted :
  ∀ env objs path version g fs pkg ti tbl imports po f st l1 par i l2 e2 l3 p u o,
  typed_file fs ti imports objs f → visited env objs path version g fs pkg ti tbl imports po f st →
  global_symbols g tbl →
  file_nodes f = l1 ++ (par, NIdent i) :: l2 ++ e2 :: l3 →
  local_def g pkg ti tbl e2 = Some (p, u) → local_def g pkg ti tbl (par, NIdent i) = None →
  plain_ident g ti (par, NIdent i) = Some i → ti_uses ti (id_ptr i) = Some o → o_pos o = p →
  ∃ before here after, f_occs st = before ++ here ++ after ∧
    here = node_occs g fs pkg ti tbl imports (lk env path version g) (omap (local_def g pkg ti tbl) l1) (par, NIdent i) ∧
    (∀ r, r ∈ here → ¬ is_local (oc_symbol r)).
Proof.
  intros env objs path version g fs pkg ti tbl imports po f st l1 par i l2 e2 l3 p u o
    Ht Hv Hg Hsplit Hld Hld1 Hp Hu Hpos.
  pose proof (lk_answers env _ path version g _ _ _ _ Ht) as Ha.
  destruct (visited_occs _ _ _ _ _ _ _ _ _ _ _ _ _ Ht Ha st Hv) as (Hnd & Ho & _).
  eexists (po :: nodes_occs g fs pkg ti tbl imports (lk env path version g) [] l1), _, _.
  split_and!; [|reflexivity|].
  - rewrite Ho, Hsplit, nsoccs_app. cbn [nodes_occs app]. reflexivity.
  - intros r Hr. apply noccs_explained in Hr.
    destruct (plain_ident_node _ _ _ _ _ Hp) as (_ & _ & Hn & _).
    destruct Hr as [ptr nm q lit r Hi _|j v pth sym Hi Hnp _|j q v encl Hi Hl _|j d info Hi _ Hd Hr|j v k Hi _ Hv' Hix|j v info Hi _ Hv' Hl];
      cbn in Hi; try discriminate; injection Hi as <-; cbn.
    + congruence.
    + congruence.
    + apply global_not_local. by eapply registered_global.
    + exfalso. rewrite Hld1 in Hix. cbn in Hix. rewrite List.app_nil_r in Hix.
      assert (v = o) as -> by congruence. apply index_of_some in Hix as [w Hw].
      unfold local_defs in Hnd. rewrite Hsplit in Hnd. rewrite omap_app, List.map_app in Hnd.
      apply NoDup_app in Hnd as (_ & Hnd & _). apply (Hnd p).
      * apply elem_of_list_fmap. exists (o_pos o, w). split; [by rewrite Hpos|]. by eapply elem_of_list_lookup_2.
      * apply elem_of_list_fmap. exists (p, u). split; [done|]. apply elem_of_list_omap.
        exists e2. split; [|done]. right. apply elem_of_app. right. left.
    + apply global_not_local. eapply (lookup_global env path version g ti tbl (lk env path version g) Ha Hg); [exact Hv'| |exact Hl].
      by eapply names_package_none.
Qed.
Print Assumptions C12_forward_reference_refuted.
(** ... in F[S ~[]E, E any] the use of E is the global `p/E#`, the definition "local 1" *)
Example C12_ex :
  (∃ l1 par l2 e2 l3, file_nodes q_file = l1 ++ (par, NIdent (mk 105 "E" 42)) :: l2 ++ e2 :: l3 ∧
     local_def q_g q_pkg q_ti q_tbl e2 = Some (45%Z, o_E) ∧
     local_def q_g q_pkg q_ti q_tbl (par, NIdent (mk 105 "E" 42)) = None ∧
     plain_ident q_g q_ti (par, NIdent (mk 105 "E" 42)) = Some (mk 105 "E" 42) ∧ ti_uses q_ti 105 = Some o_E) ∧
  ("scip-go gomod ex.org v1.0.0 `ex.org/p`/E#", 8, [0; 41; 42]%Z, false) ∈ q_view ∧
  ("local 1", 1, [0; 44; 45]%Z, false) ∈ q_view.
Proof.
  split.
  - eexists (take 11 (file_nodes q_file)), _, (take 1 (drop 12 (file_nodes q_file))), _, (drop 14 (file_nodes q_file)).
    split_and!; vm_compute; reflexivity.
  - rewrite q_doc_view. split; rewrite elem_of_list_In; cbn; tauto.
Qed.

(** C14: ranges.  A range computed from two positions decodes to their zero-based
    lines and columns, has three elements exactly when the lines are equal, and
    is not inverted. *)
Theorem C14_range_of_positions : ∀ s e o, pos_fits s → pos_fits e → pos_le s e →
  (∀ ob path, o = Some ob → o_kind ob = OPkgName path → has_prefix (o_name ob) (String dquote "") = false) →
  decode_range (scip_range s e o) =
    Some ((pos_line s - 1, pos_col s - 1), (pos_line e - 1, pos_col e - 1))%Z ∧ range_ok (scip_range s e o).
Proof. intros s e o H1 H2 H3 H4. rewrite scip_range_span by done. by destruct (span_ok s e). Qed.
Print Assumptions C14_range_of_positions.
Theorem C14_range_of_name : ∀ p name (between_quotes : bool), pos_fits p →
  (pos_col p + Z.of_nat (slen name) < 2^31)%Z →
  let k := (if between_quotes then 1 else 0)%Z in
  decode_range (range_from_name p name between_quotes) =
    Some ((pos_line p - 1, pos_col p - 1 + k), (pos_line p - 1, pos_col p - 1 + k + Z.of_nat (slen name)))%Z ∧
  range_ok (range_from_name p name between_quotes).
Proof.
  intros p name b H1 H2 k. rewrite range_from_name_span by done. split; [|by apply text_span_ok].
  unfold text_span, k. by destruct b.
Qed.
Print Assumptions C14_range_of_name.

(** an identifier (or function) ends at or after its start *)
Definition forward_positions (fs : fset) (f : node) : Prop :=
  (∀ i, NIdent i ∈ subnodes f →
     pos_le (fs_position fs (id_pos i)) (fs_position fs (id_pos i + Z.of_nat (slen (id_name i)))%Z)) ∧
  (∀ d p e r nm t b, NFuncDecl d p e r nm t b ∈ file_decls f → pos_le (fs_position fs p) (fs_position fs e)).

Lemma import_refs_range fs ti imports g f ptr nm p lit o : wf_file fs ti imports f →
  NImportSpec ptr nm p lit ∈ subnodes f → o ∈ import_refs g fs ti imports ptr nm p →
  range_ok (oc_range o) ∧ oc_enclosing o = [].
Proof.
  intros Hwf Hin Ho. unfold import_refs in Ho.
  destruct (ti_pkgname_of ti ptr) as [po|]; [|by apply elem_of_nil in Ho].
  destruct (o_kind po); try by apply elem_of_nil in Ho.
  destruct (imports imported_path) as [imp|] eqn:Him; [|by apply elem_of_nil in Ho].
  destruct (g_pkgsyms g !! _); [|by apply elem_of_nil in Ho].
  apply elem_of_app in Ho as [Ho|Ho].
  - destruct nm as [j|]; [|by apply elem_of_nil in Ho].
    destruct (_ || _)%bool; [by apply elem_of_nil in Ho|]. apply elem_of_list_singleton in Ho as ->.
    split; [|done]. apply text_span_ok. eapply wff_fit_ident; [done|].
    eapply subnodes_trans; [exact Hin|]. cbn. right. left.
  - apply elem_of_list_singleton in Ho as ->. split; [|done]. apply text_span_ok.
    by eapply wff_fit_import.
Qed.

(** every range of a document (after the package clause) *)
Theorem C14_document_ranges :
  ∀ env objs path version g fs pkg ti tbl imports po f st,
  typed_file fs ti imports objs f → forward_positions fs f →
  visited env objs path version g fs pkg ti tbl imports po f st →
  ∃ occs, f_occs st = po :: occs ∧
    ∀ o, o ∈ occs → range_ok (oc_range o) ∧ (oc_enclosing o = [] ∨ range_ok (oc_enclosing o)).
Proof.
  intros env objs path version g fs pkg ti tbl imports po f st Ht [Hfw1 Hfw2] Hv.
  pose proof (lk_answers env _ path version g _ _ _ _ Ht) as Ha.
  destruct (visited_occs _ _ _ _ _ _ _ _ _ _ _ _ _ Ht Ha st Hv) as (_ & Ho & _).
  eexists. split; [exact Ho|]. intros o Hin. pose proof (tf_wf _ _ _ _ _ Ht) as Hwf.
  apply nsoccs_explained in Hin as (l1 & e & l2 & Hsplit & He).
  assert (Hef : e ∈ file_nodes f) by (rewrite Hsplit; apply elem_of_app; right; left).
  assert (He' : snd e ∈ subnodes f) by (by eapply file_nodes_sub).
  assert (Hid : ∀ i, snd e = NIdent i → range_ok (ident_span fs i)).
  { intros i Hi. rewrite Hi in He'. destruct (wff_fit_ident _ _ _ _ Hwf i He') as (F1 & F2 & _).
    unfold ident_span. apply span_ok; [done|done|by apply Hfw1]. }
  assert (Hencl : ∀ i, snd e = NIdent i → enclosing fs (fst e) i = [] ∨ range_ok (enclosing fs (fst e) i)).
  { intros i Hi. destruct e as [par n]. cbn in Hi. subst n. cbn [fst]. destruct par as [m|]; [|by left].
    destruct m; try by left. cbn. destruct (Nat.eqb _ _); [right|by left].
    assert (Hm : NFuncDecl doc p pend recv name m body ∈ file_decls f).
    { unfold file_nodes in Hef. apply elem_of_concat_map in Hef as (decl & Hd & Hef).
      apply with_parent_elem in Hef as [[Hpar _]|(q & Hq & Hqd & _)].
      - exfalso. injection Hpar as Hpar. destruct (wff_file _ _ _ _ Hwf) as (? & ? & ? & ? & ? & E). by rewrite E in Hpar.
      - injection Hq as <-. rewrite <- (with_parent_snd None decl) in Hqd.
        apply elem_of_list_fmap in Hqd as ([q' m'] & Hm' & Hqd). cbn in Hm'. subst m'.
        apply with_parent_elem in Hqd as [[_ <-]|(r & _ & Hr1 & Hr2)]; [done|].
        exfalso. exact (wff_nested _ _ _ _ Hwf _ _ _ Hd Hr1 Hr2). }
    destruct (wff_fit_func _ _ _ _ Hwf _ _ _ _ _ _ _ Hm) as [F1 F2].
    apply span_ok; [done|done|]. by eapply Hfw2. }
  destruct He as [ptr nm p lit o Hn Hi|i u pth sym Hn _ _|i p u encl Hn Hld He|i def info Hn _ Hd Hr|i u k Hn _ _ _|i u info Hn _ _ _]; cbn.
  - rewrite Hn in He'. destruct (import_refs_range _ _ _ _ _ _ _ _ _ _ Hwf He' Hi) as [? ->]. split; [done|by left].
  - split; [by apply Hid|by left].
  - split; [by apply Hid|]. destruct He as [->| ->]; [by left|by apply Hencl].
  - split; [by apply Hid|]. by apply Hencl.
  - split; [by apply Hid|by left].
  - split; [by apply Hid|by left].
Qed.
Print Assumptions C14_document_ranges.
Example C14_ex : forward_positions p_fs q_file ∧
  decode_range (scip_range (Position "a.go" 3 5) (Position "a.go" 3 8) None) = Some ((2, 4), (2, 7))%Z.
Proof.
  split; [|vm_compute; reflexivity]. split.
  - intros i Hi. right. cbn. split; [done|]. lia.
  - intros d p e r nm t b H. enum H. injection H as <- <- <- <- <- <- <-. vm_compute. right. split; [done|discriminate].
Qed.

(** C15: an import spec whose literal is the quoted path of the package: the
    reference starts just after the opening quote and ends at the closing one. *)
Theorem C15_import_range :
  ∀ env objs path version g fs pkg ti tbl imports po f st par ptr nm p lit o ipath imp sym,
  typed_file fs ti imports objs f → visited env objs path version g fs pkg ti tbl imports po f st →
  (par, NImportSpec ptr nm p lit) ∈ file_nodes f →
  ti_pkgname_of ti ptr = Some o → o_kind o = OPkgName ipath → imports ipath = Some imp →
  g_pkgsyms g !! p_path imp = Some sym →
  lit = String dquote (p_path imp +:+ String dquote "") →
  ∃ r, r ∈ f_occs st ∧ oc_symbol r = sym ∧ oc_roles r = 8 ∧
    let start := fs_position fs p in
    decode_range (oc_range r) =
      Some ((pos_line start - 1, (pos_col start - 1) + 1),
            (pos_line start - 1, (pos_col start - 1) + Z.of_nat (slen lit) - 1))%Z.
Proof.
  intros env objs path version g fs pkg ti tbl imports po f st par ptr nm p lit o ipath imp sym
    Ht Hv Hin Hpn Hk Himp Hsym ->.
  pose proof (lk_answers env _ path version g _ _ _ _ Ht) as Ha.
  destruct (visited_occs _ _ _ _ _ _ _ _ _ _ _ _ _ Ht Ha st Hv) as (_ & Ho & _).
  apply elem_of_list_split in Hin as (l1 & l2 & E).
  exists (Reference sym (text_span (fs_position fs p) 1 (slen (p_path imp))) false). split_and!; [|done|done|].
  - rewrite Ho, E. right. apply nsoccs_elem. eexists l1, _, l2. split; [done|]. cbn. unfold import_refs.
    rewrite Hpn, Hk, Himp, Hsym. apply elem_of_app. right. by apply elem_of_list_singleton.
  - cbn. rewrite slen_app. cbn. do 4 f_equal. lia.
Qed.
Print Assumptions C15_import_range.
(** the length of the range is that of the package path, so when the package has
    another path than the literal (vendored packages of the standard library)
    the range does not end at the closing quote *)
Theorem C15_vendored_refuted :
  ∀ env objs path version g fs pkg ti tbl imports po f st par ptr nm p lit text o ipath imp sym,
  typed_file fs ti imports objs f → visited env objs path version g fs pkg ti tbl imports po f st →
  (par, NImportSpec ptr nm p lit) ∈ file_nodes f →
  ti_pkgname_of ti ptr = Some o → o_kind o = OPkgName ipath → imports ipath = Some imp →
  g_pkgsyms g !! p_path imp = Some sym →
  lit = String dquote (text +:+ String dquote "") → slen text ≠ slen (p_path imp) →
  ∃ r, r ∈ f_occs st ∧ oc_symbol r = sym ∧ oc_roles r = 8 ∧
    let start := fs_position fs p in
    (∃ c, decode_range (oc_range r) = Some ((pos_line start - 1, (pos_col start - 1) + 1), (pos_line start - 1, c)) ∧
      c ≠ (pos_col start - 1) + Z.of_nat (slen lit) - 1)%Z.
Proof.
  intros env objs path version g fs pkg ti tbl imports po f st par ptr nm p lit text o ipath imp sym
    Ht Hv Hin Hpn Hk Himp Hsym -> Hlen.
  pose proof (lk_answers env _ path version g _ _ _ _ Ht) as Ha.
  destruct (visited_occs _ _ _ _ _ _ _ _ _ _ _ _ _ Ht Ha st Hv) as (_ & Ho & _).
  apply elem_of_list_split in Hin as (l1 & l2 & E).
  exists (Reference sym (text_span (fs_position fs p) 1 (slen (p_path imp))) false). split_and!; [|done|done|].
  - rewrite Ho, E. right. apply nsoccs_elem. eexists l1, _, l2. split; [done|]. cbn. unfold import_refs.
    rewrite Hpn, Hk, Himp, Hsym. apply elem_of_app. right. by apply elem_of_list_singleton.
  - cbn. rewrite slen_app. cbn. eexists. split; [done|]. lia.
Qed.
Print Assumptions C15_vendored_refuted.
Example C15_ex :
  (∃ par, (par, NImportSpec 101 (Some (mk 102 "f" 19)) 21 (String dquote ("fmt" +:+ String dquote ""))) ∈ file_nodes q_file) ∧
  ti_pkgname_of q_ti 101 = Some o_fmt ∧ q_imports "fmt" = Some fmt_pkg ∧
  g_pkgsyms q_g !! p_path fmt_pkg = Some "scip-go gomod github.com/golang/go/src go1.25 fmt/".
Proof.
  split; [|split_and!; vm_compute; reflexivity]. eexists. rewrite elem_of_list_In. cbn. right. left. reflexivity.
Qed.

(** C18: diagnostics.  (a) The definition of a recorded declaration is marked
    deprecated exactly when a documentation line starts with "Deprecated:", ... *)
Theorem C18_definitions :
  ∀ env objs path version g fs pkg ti tbl imports po f st par i d info,
  typed_file fs ti imports objs f → visited env objs path version g fs pkg ti tbl imports po f st →
  (par, NIdent i) ∈ file_nodes f → plain_ident g ti (par, NIdent i) = Some i → switch_object ti i = None →
  ti_defs ti (id_ptr i) = Some d → registered g pkg tbl (o_pos d) = Some info →
  ∃ o, o ∈ f_occs st ∧ oc_roles o = 1 ∧ oc_range o = ident_span fs i ∧ oc_symbol o = i_symbol info ∧
    (oc_diags o = [DeprecatedDiag] ↔ ∃ t, t ∈ i_documentation info ∧ line_deprecated t) ∧
    (oc_diags o = [] ↔ ¬ ∃ t, t ∈ i_documentation info ∧ line_deprecated t).
Proof.
  intros env objs path version g fs pkg ti tbl imports po f st par i d info Ht Hv Hin Hp Hs Hd Hr.
  pose proof (lk_answers env _ path version g _ _ _ _ Ht) as Ha.
  destruct (visited_occs _ _ _ _ _ _ _ _ _ _ _ _ _ Ht Ha st Hv) as (_ & Ho & _).
  apply elem_of_list_split in Hin as (l1 & l2 & E). eexists. split_and!.
  - rewrite Ho, E. right. apply nsoccs_elem. eexists l1, _, l2. split; [done|]. by eapply def_occ.
  - done.
  - done.
  - done.
  - rewrite <- docs_deprecated_spec. cbn. by destruct (docs_deprecated _).
  - rewrite <- docs_deprecated_spec. cbn. by destruct (docs_deprecated _).
Qed.
Print Assumptions C18_definitions.
(** (b) ... so is a reference that resolves to a symbol, ... *)
Theorem C18_references :
  ∀ env objs path version g fs pkg ti tbl imports po f st par i u info,
  typed_file fs ti imports objs f → visited env objs path version g fs pkg ti tbl imports po f st →
  (par, NIdent i) ∈ file_nodes f → plain_ident g ti (par, NIdent i) = Some i → switch_object ti i = None →
  ti_uses ti (id_ptr i) = Some u → o_pos u ∉ map fst (local_defs g pkg ti tbl f) →
  resolves env path version g u (Found info) →
  ∃ o, o ∈ f_occs st ∧ oc_roles o = 8 ∧ oc_range o = ident_span fs i ∧ oc_symbol o = i_symbol info ∧
    (oc_diags o = [DeprecatedDiag] ↔ ∃ t, t ∈ i_documentation info ∧ line_deprecated t) ∧
    (oc_diags o = [] ↔ ¬ ∃ t, t ∈ i_documentation info ∧ line_deprecated t).
Proof.
  intros env objs path version g fs pkg ti tbl imports po f st par i u info Ht Hv Hin Hp Hs Hu Hnl Hr.
  pose proof (lk_answers env _ path version g _ _ _ _ Ht) as Ha.
  destruct (visited_occs _ _ _ _ _ _ _ _ _ _ _ _ _ Ht Ha st Hv) as (_ & Ho & _).
  apply elem_of_list_split in Hin as (l1 & l2 & E). eexists. split_and!.
  - rewrite Ho, E. right. apply nsoccs_elem. eexists l1, _, l2. split; [done|].
    pose proof (use_occ g fs pkg ti tbl imports (lk env path version g)
      ([] ++ omap (local_def g pkg ti tbl) l1) par i u Hp Hs Hu) as H. cbn zeta in H.
    assert (index_of (o_pos u) (([] ++ omap (local_def g pkg ti tbl) l1) ++ option_list (local_def g pkg ti tbl (par, NIdent i))) = None) as Hix.
    { apply index_of_none. intros Hi. apply Hnl. unfold local_defs. rewrite E, omap_app, List.map_app.
      cbn in Hi. rewrite List.map_app in Hi. apply elem_of_app in Hi as [Hi|Hi]; apply elem_of_app; [by left|right].
      unfold omap. cbn. destruct (local_def g pkg ti tbl (par, NIdent i)); cbn in *; [|by apply elem_of_nil in Hi].
      apply elem_of_list_singleton in Hi as ->. left. }
    rewrite Hix in H. apply (H info).
    destruct (plain_ident_node _ _ _ _ _ Hp) as (_ & _ & Hn & _).
    pose proof (names_package_none _ _ _ Hn Hu) as Hpn.
    pose proof (tf_uses _ _ _ _ _ Ht _ _ Hu Hpn) as Hgo.
    apply (answer_resolves env objs g path version u _ Hgo) in Hr. unfold lk. by rewrite Hr.
  - done.
  - done.
  - done.
  - rewrite <- docs_deprecated_spec. cbn. by destruct (docs_deprecated _).
  - rewrite <- docs_deprecated_spec. cbn. by destruct (docs_deprecated _).
Qed.
Print Assumptions C18_references.
(** (c) ... and no other occurrence is: a marked occurrence is a definition or
    reference of an entry with such a documentation line. *)
Theorem C18_only_deprecated :
  ∀ env objs path version g fs pkg ti tbl imports po f st,
  typed_file fs ti imports objs f → visited env objs path version g fs pkg ti tbl imports po f st →
  ∃ occs, f_occs st = po :: occs ∧ ∀ o, o ∈ occs → oc_diags o ≠ [] →
    ∃ i info, NIdent i ∈ subnodes f ∧ oc_range o = ident_span fs i ∧ oc_symbol o = i_symbol info ∧
      ((∃ d, ti_defs ti (id_ptr i) = Some d ∧ registered g pkg tbl (o_pos d) = Some info) ∨
       (∃ u, ti_uses ti (id_ptr i) = Some u ∧ resolves env path version g u (Found info))) ∧
      ∃ t, t ∈ i_documentation info ∧ line_deprecated t.
Proof.
  intros env objs path version g fs pkg ti tbl imports po f st Ht Hv.
  pose proof (lk_answers env _ path version g _ _ _ _ Ht) as Ha.
  destruct (visited_occs _ _ _ _ _ _ _ _ _ _ _ _ _ Ht Ha st Hv) as (_ & Ho & _).
  eexists. split; [exact Ho|]. intros o Hin Hdiag.
  apply nsoccs_explained in Hin as (l1 & e & l2 & Hsplit & He).
  assert (He' : snd e ∈ subnodes f).
  { eapply file_nodes_sub; [exact Ht|]. rewrite Hsplit. apply elem_of_app. right. left. }
  destruct He as [ptr nm p lit o Hn Hi|i u pth sym Hn _ _|i p u encl Hn Hld _|i def info Hn _ Hd Hr|i u k Hn _ _ _|i u info Hn Hp Hu Hl]; try done.
  - exfalso. unfold import_refs in Hi. destruct (ti_pkgname_of ti ptr) as [q|]; [|by apply elem_of_nil in Hi].
    destruct (o_kind q); try by apply elem_of_nil in Hi.
    destruct (imports imported_path); [|by apply elem_of_nil in Hi].
    destruct (g_pkgsyms g !! _); [|by apply elem_of_nil in Hi].
    apply elem_of_app in Hi as [Hi|Hi]; [|by apply elem_of_list_singleton in Hi as ->].
    destruct nm as [j|]; [|by apply elem_of_nil in Hi].
    destruct (_ || _)%bool; [by apply elem_of_nil in Hi|by apply elem_of_list_singleton in Hi as ->].
  - exists i, info. rewrite Hn in He'. split_and!; [done|done|done|left; by exists def|].
    apply docs_deprecated_spec. cbn in Hdiag. by destruct (docs_deprecated _).
  - exists i, info. rewrite Hn in He'. split_and!; [done|done|done|right|].
    + exists u. split; [done|]. rewrite <- Hl. apply (Ha (id_ptr i)); [done|].
      destruct e as [par n]. cbn in Hn. subst n. destruct (plain_ident_node _ _ _ _ _ Hp) as (_ & _ & Hnp & _).
      by eapply names_package_none.
    + apply docs_deprecated_spec. cbn in Hdiag. by destruct (docs_deprecated _).
Qed.
Print Assumptions C18_only_deprecated.
Example C18_ex : (∃ info, registered q_g q_pkg q_tbl (o_pos o_F) = Some info ∧
    i_documentation info = ["F docs." +:+ nl +:+ nl +:+ "Deprecated: use G."]) ∧
  switch_object q_ti (mk 103 "F" 35) = None ∧
  ("scip-go gomod ex.org v1.0.0 `ex.org/p`/F().", 1, [0; 34; 35]%Z, true) ∈ q_view.
Proof.
  split; [eexists; split; vm_compute; reflexivity|]. split; [done|].
  rewrite q_doc_view, elem_of_list_In. cbn; tauto.
Qed.
