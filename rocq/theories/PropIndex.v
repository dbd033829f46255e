(** C20, C38, C42, C53, C54: the whole run of Index. *)
From Coq Require Import Ascii String.
From stdpp Require Import prelude strings gmap sorting.
From Verif Require Import GoStr Scip GoTypes Ast Packages Symbols Document Lookup Pass1 Pass2 Paths
  Loader Index SpecSymbol SpecDecl SpecLookup SpecOcc SpecIndex
  P_Symbols P_Pass1 P_Link P_Lookup P_Pass2 P_Occ P_Scope P_Index PropDecl PropOcc ExDecl ExOcc.
Open Scope string_scope.
Open Scope list_scope.

(** C20: the package documentation lists every package comment once: those of doc.go, then
    of the file named like the package, then of other files, then of tests; within a class
    in load order. *)
Theorem C20_package_docs : ∀ fs p,
  (∀ f, f ∈ p_syntax p → has_suffix (pos_file (fs_position fs (file_package_pos f))) ".go" = true) →
  no_slash (p_name p) →
  ∃ class : node → nat,
    (∀ f, f ∈ p_syntax p → ∀ c, class f = c ↔ relevance (p_name p) (pos_file (fs_position fs (file_package_pos f))) c) ∧
    find_package_docs fs p =
      let commented c := filter (λ f, file_has_doc f = true ∧ class f = c) (p_syntax p) in
      map file_doc (commented 0 ++ commented 1 ++ commented 2 ++ commented 3).
Proof.
  intros fs p Hgo Hn.
  exists (λ f, file_relevance (p_name p) (pos_file (fs_position fs (file_package_pos f)))). split.
  - intros f Hf c. destruct (file_relevance_spec (p_name p) _ (Hgo f Hf) Hn) as [H1 H2]. split; [by intros <-|].
    intros Hc. by rewrite (H2 _ Hc).
  - rewrite package_docs_classes. cbn zeta. cbn [map List.concat]. rewrite !List.map_app, List.app_nil_r.
    assert (∀ c, map file_doc (List.filter (λ f, (file_has_doc f && Nat.eqb (file_relevance (p_name p) (pos_file (fs_position fs (file_package_pos f)))) c)%bool) (p_syntax p)) =
      map file_doc (filter (λ f, file_has_doc f = true ∧ file_relevance (p_name p) (pos_file (fs_position fs (file_package_pos f))) = c) (p_syntax p))) as H.
    { intros c. f_equal. induction (p_syntax p) as [|f l IH]; [done|]. rewrite filter_cons. cbn.
      rewrite IH; [|intros; apply Hgo; by right]. destruct (file_has_doc f); cbn.
      - destruct (Nat.eqb_spec (file_relevance (p_name p) (pos_file (fs_position fs (file_package_pos f)))) c); case_decide; naive_solver.
      - case_decide; naive_solver. }
    by rewrite !H.
Qed.
Print Assumptions C20_package_docs.

(** C38: if writing a message fails, nothing further is written and exactly that error is
    returned: the messages are a prefix of those of the same run with a perfect writer. *)
Theorem C38_write_failure :
  ∀ digest env fs h objstr mo impl impl_error root version skip meta ld po ao po2 (w : writer),
  let run w := index digest env fs h objstr mo w impl impl_error root version skip meta ld po ao po2 in
  let full := (run (λ _ _, None)).1 in
  ((∀ n m, full !! n = Some m → w (take n full) m = None) → run w = run (λ _ _, None)) ∧
  (∀ n m e, full !! n = Some m → w (take n full) m = Some e →
     (∀ n' m', n' < n → full !! n' = Some m' → w (take n' full) m' = None) →
     run w = (take n full, Returned (Some e))).
Proof.
  intros digest env fs h objstr mo impl impl_error root version skip meta ld po ao po2 w run full.
  assert (Hc : (accepts w [] full ∧ run w = run (λ _ _, None)) ∨
    (∃ i e, fails_at w [] full i e ∧ run w = (take i full, Returned (Some e))))
    by exact (index_cut digest env fs h objstr mo impl impl_error w root version skip meta ld po ao po2).
  split.
  - intros Hall. destruct Hc as [[_ Hc]|(i & e & (m & H1 & H2 & _) & _)]; [done|]. cbn in H2. rewrite (Hall _ _ H1) in H2. done.
  - intros n m e Hn He Hbefore. destruct Hc as [[Ha Hc]|(i & e' & (m' & H1 & H2 & H3) & Hc)].
    + specialize (Ha _ _ Hn). cbn in Ha. congruence.
    + cbn in H2. destruct (decide (i = n)) as [->|Hne]; [congruence|]. exfalso.
      destruct (decide (i < n)) as [Hlt|Hge].
      * rewrite (Hbefore _ _ Hlt H1) in H2. done.
      * pose proof (lookup_lt_Some _ _ _ H1).
        specialize (H3 n m). cbn in H3. rewrite lookup_take in H3 by lia. specialize (H3 Hn).
        rewrite take_take in H3. replace (n `min` i) with n in H3 by lia. congruence.
Qed.
Print Assumptions C38_write_failure.

(** ... if loading or the search for implementations fails, only the metadata has been
    written and that error is returned. *)
Theorem C38_load_failure :
  ∀ digest env fs h objstr mo impl impl_error root version skip meta err po ao po2 (w : writer),
  w [] (MMeta meta) = None →
  index digest env fs h objstr mo w impl impl_error root version skip meta (LoadFailed err) po ao po2
    = ([MMeta meta], Returned (Some err)).
Proof. intros. unfold index. by rewrite H. Qed.

Section Project.
Context (digest : string → string) (env : tenv) (objs : nat → option obj) (fs : fset) (h : pheap).
Context (objstr : obj → string) (mo : map_orders) (root version : string) (all proj : ptab) (ps : list gpkg).
Context (impl : global → caches → res (option (global * caches * list syminfo))) (impl_error : string).
Context (po ao po2 : list string) (skip : bool) (meta : metadata) (w : writer).
Context (Hix : indexable objs fs h all proj ps) (Hmo : orders_ok mo).
Context (Hpo : key_order proj po) (Hao : key_order all ao) (Hpo2 : key_order proj po2).
Context (Hic : impl_contract env objs root version h all proj impl).

Notation run := (index digest env fs h objstr mo w impl impl_error root version skip meta (LoadOk all proj) po ao po2).

(** Indexing a type-checked project never crashes, unless the search for implementations does. *)
Theorem C21_index_no_crash :
  (skip = false → ∀ g, initial_tables h all proj g → ∃ r, impl g (fresh_caches root version) = Ok r) → ∃ msgs err, run = (msgs, Returned err).
Proof.
  intros Hno.
  pose proof (index_cut digest env fs h objstr mo impl impl_error w root version skip meta (LoadOk all proj) po ao po2) as Hc.
  cbn beta zeta in Hc. destruct Hc as [[_ Hc]|(i & e & _ & ->)]; [|eauto]. rewrite Hc.
  destruct (pipeline digest env objs fs h objstr mo root version all proj (ix_loaded _ _ _ _ _ _ Hix) ps po ao po2 impl impl_error skip meta
    (ix_order _ _ _ _ _ _ Hix) (ix_typed _ _ _ _ _ _ Hix) Hmo Hpo Hao Hpo2 Hic) as (g0 & Htab & Hcase).
  unfold searched in Hcase. destruct skip.
  - destruct Hcase as (_ & ds & -> & _). eauto.
  - destruct (Hno eq_refl g0 (tables_initial digest env fs h all proj ps g0 Htab (ix_order _ _ _ _ _ _ Hix))) as [[[[g k] exts]|] Hr]; rewrite Hr in Hcase.
    + destruct Hcase as (_ & ds & -> & _). eauto.
    + rewrite Hcase. eauto.
Qed.

(** C42: ... and the list of files without a document, which -list-missing prints, is
    therefore empty for every type-checked project: the command never reports anything. *)
Lemma visit_syntaxes l : ∀ (docs : docmap) g, (∀ p, p ∈ l → pkg_ready fs p) →
  ∃ docs' g', res_fold (visit_package_syntax digest env fs root) (docs, g) l = Ok (docs', g') ∧
    (∀ n, is_Some (docs !! n) → is_Some (docs' !! n)) ∧
    (∀ p f name, p ∈ l → f ∈ p_syntax p → file_of fs f name → is_Some (docs' !! name)).
Proof.
  induction l as [|p l IH]; intros docs g Hl.
  { exists docs, g. split; [done|]. split; [done|]. intros p f name Hp. by apply elem_of_nil in Hp. }
  assert (∃ docs1 g1, visit_package_syntax digest env fs root (docs, g) p = Ok (docs1, g1) ∧
    (∀ n, is_Some (docs !! n) → is_Some (docs1 !! n)) ∧
    (∀ f name, f ∈ p_syntax p → file_of fs f name → is_Some (docs1 !! name))) as (docs1 & g1 & E1 & H1 & H1').
  { destruct (Hl p) as (Hn & Hm & Hti); [left|]. unfold visit_package_syntax. cbn [fst snd].
    destruct (p_syntax p) as [|first rest] eqn:Hsy.
    - eexists docs, _. split; [done|]. split; [done|]. intros f name Hf. by apply elem_of_nil in Hf.
    - destruct Hti as [ti ->]; [done|]. destruct (visit_table_ok digest env fs ti p Hm) as [tbl ->]. cbn [res_bind].
      destruct (add_documents fs root p (first :: rest) docs) as (docs1 & E1 & H1).
      { intros f Hf. apply Hn. by rewrite Hsy. }
      rewrite E1. cbn [res_bind]. eexists docs1, _. split; [done|]. split.
      + intros n Hs. rewrite H1. by destruct (last_named _ _ _).
      + intros f name Hf Hfn. rewrite H1. destruct (last_named _ _ _) eqn:El; [done|].
        apply last_named_none in El. exfalso. apply El. apply elem_of_list_fmap. exists (p, f).
        split; [|apply elem_of_list_fmap; by exists f]. unfold entry_name, file_of in *. cbn. by rewrite Hfn. }
  cbn [res_fold]. rewrite E1. cbn [res_bind].
  destruct (IH docs1 g1) as (docs2 & g2 & E2 & H2 & H2'); [intros q Hq; apply Hl; by right|].
  exists docs2, g2. split; [done|]. split; [auto|].
  intros q f name [->|Hq]%elem_of_cons Hf Hfn; eauto.
Qed.
Definition in_order (order : list string) : list gpkg :=
  omap (λ k, match proj !! k with Some q => h !! q | None => None end) order.
Theorem C42_list_missing_empty : ∀ order1 order2, key_order proj order1 → key_order proj order2 →
  list_missing digest env fs h root proj order1 order2 = Ok [].
Proof.
  intros o1 o2 Ho1 Ho2. unfold list_missing.
  set (pk := in_order). change (omap (λ k, match proj !! k with Some q => h !! q | None => None end) o1) with (pk o1).
  change (omap (λ k, match proj !! k with Some q => h !! q | None => None end) o2) with (pk o2). cbv zeta.
  assert (Hpk : ∀ o, key_order proj o → ∀ p, p ∈ pk o ↔ p ∈ ps).
  { intros o Ho p. rewrite <- (project_unique h all proj (ix_loaded _ _ _ _ _ _ Hix) ps o (ix_order _ _ _ _ _ _ Hix) Ho).
    unfold packages_of, pk, in_order. rewrite !elem_of_list_omap. split; intros (k & Hk & He); exists k; (split; [|done]).
    - unfold sorted_keys. by rewrite merge_sort_Permutation.
    - unfold sorted_keys in Hk. by rewrite merge_sort_Permutation in Hk. }
  assert (Hready : ∀ p, p ∈ pk o1 → pkg_ready fs p).
  { intros p Hp%(Hpk _ Ho1). destruct (typed_named objs fs h ps p (ix_typed _ _ _ _ _ _ Hix) Hp) as [H1 H2].
    split; [done|]. split; [|done]. destruct (ix_order _ _ _ _ _ _ Hix) as [_ Hin]. destruct (Hin _ Hp) as (q & Hq & Hh).
    destruct (ix_loaded _ _ _ _ _ _ Hix) as (_ & Hkp & _). destruct (Hkp _ _ Hq) as (p1 & m & Hh1 & _ & Hm).
    assert (p1 = p) as -> by congruence. eauto. }
  destruct (visit_syntaxes (pk o1) ∅ new_global Hready) as (docs & g & E & _ & Hdocs).
  rewrite E. cbn [res_bind fst].
  assert (Hfs : ∀ f, f ∈ List.concat (map p_syntax (pk o2)) → ∃ name, file_of fs f name ∧ is_Some (docs !! name)).
  { intros f (p & Hp & Hf)%elem_of_concat_map. apply (Hpk _ Ho2) in Hp.
    destruct (tpj_info _ _ _ _ (ix_typed _ _ _ _ _ _ Hix) p f Hp Hf) as (ti & name & _ & _ & _ & Hn).
    exists name. split; [done|]. eapply Hdocs; [|done|done]. by apply (Hpk _ Ho1). }
  induction (List.concat (map p_syntax (pk o2))) as [|f l IH]; [done|].
  destruct (Hfs f) as (name & Hn & [d Hd]); [left|]. cbn [res_fold]. unfold file_name at 1. rewrite Hn. cbn [res_bind].
  rewrite Hd. apply IH. intros f' Hf'. apply Hfs. by right.
Qed.

(** C38: if the search for implementations fails, exactly the metadata was written. *)
Theorem C38_search_failure :
  skip = false → (∀ g, impl g (fresh_caches root version) = Ok None) → w [] (MMeta meta) = None →
  run = ([MMeta meta], Returned (Some impl_error)).
Proof.
  intros -> Hf Hw.
  pose proof (index_cut digest env fs h objstr mo impl impl_error w root version false meta (LoadOk all proj) po ao po2) as Hc.
  cbn beta zeta in Hc.
  destruct (pipeline digest env objs fs h objstr mo root version all proj (ix_loaded _ _ _ _ _ _ Hix) ps po ao po2 impl impl_error false meta
    (ix_order _ _ _ _ _ _ Hix) (ix_typed _ _ _ _ _ _ Hix) Hmo Hpo Hao Hpo2 Hic) as (g0 & _ & Hcase).
  unfold searched in Hcase. rewrite Hf in Hcase. rewrite Hcase in Hc. cbn [fst] in Hc.
  destruct Hc as [[_ Hc]|(i & e & (m & H1 & H2 & _) & _)]; [done|].
  destruct i as [|i]; [|done]. injection H1 as <-. cbn in H2. congruence.
Qed.

Context (msgs : list message) (Hrun : run = (msgs, Returned None)).

Lemma success : ∃ ds exts g0 g k, msgs = MMeta meta :: map MDoc ds ++ map MExt exts ∧
  tables_ok digest env fs h all ps g0 ∧ searched root version impl skip g0 = Ok (Some (g, k, exts)) ∧ same_tables g0 g ∧
  Forall2 (λ e d, document_for env objs root version fs h objstr g e.1 e.2 d) (files_in_order ps) ds.
Proof.
  exact (successful_run digest env objs fs h objstr mo root version all proj (ix_loaded _ _ _ _ _ _ Hix) w ps po ao po2 impl impl_error skip meta msgs
    (ix_order _ _ _ _ _ _ Hix) (ix_typed _ _ _ _ _ _ Hix) Hmo Hpo Hao Hpo2 Hic Hrun).
Qed.

Lemma documents_app l1 l2 : documents (l1 ++ l2) = documents l1 ++ documents l2.
Proof. apply omap_app. Qed.
Lemma documents_docs ds : documents (map MDoc ds) = ds.
Proof. induction ds as [|d ds IH]; [done|]. unfold documents in *. cbn. by rewrite IH. Qed.
Lemma documents_exts ds : documents (map MExt ds) = [].
Proof. induction ds as [|d ds IH]; [done|]. unfold documents in *. cbn. by rewrite IH. Qed.
Lemma documents_msgs m ds exts : documents (MMeta m :: map MDoc ds ++ map MExt exts) = ds.
Proof.
  change (MMeta m :: map MDoc ds ++ map MExt exts) with ([MMeta m] ++ map MDoc ds ++ map MExt exts).
  by rewrite !documents_app, documents_docs, documents_exts, List.app_nil_r.
Qed.

(** C38: the messages of a successful run: the metadata, then one document per parsed
    file in package-path order and file order, then external symbols. *)
Theorem C38_emission_order :
  ∃ ds exts, msgs = MMeta meta :: map MDoc ds ++ map MExt exts ∧
    Forall2 (λ e d, ∃ name, file_of fs e.2 name ∧ d_path d = doc_relative_path root name) (files_in_order ps) ds.
Proof.
  destruct success as (ds & exts & g0 & g & k & -> & _ & _ & _ & Hds). exists ds, exts. split; [done|].
  eapply Forall2_impl; [exact Hds|]. intros [p f] d. cbn. intros (ti & tbl & st & sym & name & to & lo & _ & Hn & _ & _ & _ & _ & _ & ->).
  exists name. done.
Qed.

(** C42: every parsed file of every project package has a document with its relative path. *)
Theorem C42_every_file_has_document : ∀ p f name, p ∈ ps → f ∈ p_syntax p → file_of fs f name →
  ∃ d, document_of ps (documents msgs) p f d ∧ d_path d = doc_relative_path root name.
Proof.
  intros p f name Hp Hf Hn. destruct C38_emission_order as (ds & exts & -> & Hds). rewrite documents_msgs.
  assert ((p, f) ∈ files_in_order ps) as [n Hi]%elem_of_list_lookup by by apply files_elem.
  destruct (Forall2_lookup_l _ _ _ _ _ Hds Hi) as (d & Hd & name' & Hn' & Hpath). cbn in Hn'.
  exists d. split; [by exists n|]. unfold file_of in *. congruence.
Qed.

(** the declared entries in the final tables *)
Lemma project_module p : p ∈ ps → ∃ m, p_module p = Some m.
Proof.
  intros Hp. destruct (ix_order _ _ _ _ _ _ Hix) as [_ Hin]. destruct (Hin p Hp) as (q & Hq & Hh).
  destruct (ix_loaded _ _ _ _ _ _ Hix) as (_ & Hk & _). destruct (Hk _ _ Hq) as (p1 & m & Hh1 & _ & Hm).
  assert (p1 = p) as -> by congruence. eauto.
Qed.
Lemma declares_child f i k par : file_declares f i k par → NIdent i ∈ subnodes f ∧
  (match par with NField _ _ [] _ => False | _ => True end →
   ∃ q, (Some q, NIdent i) ∈ file_nodes f ∧ match q with NImportSpec _ _ _ _ | NSelectorExpr _ _ => False | _ => True end).
Proof.
  intros (p & hd & d & nm & decls & decl & -> & Hin & Hd).
  assert (Hq : NIdent i ∈ subnodes decl ∧ (match par with NField _ _ [] _ => False | _ => True end →
    ∃ q, q ∈ subnodes decl ∧ NIdent i ∈ node_children q ∧ match q with NImportSpec _ _ _ _ | NSelectorExpr _ _ => False | _ => True end)).
  { assert (Hsub : ∀ q, q ∈ subnodes decl → NIdent i ∈ node_children q → NIdent i ∈ subnodes decl).
    { intros q Hq Hi. eapply subnodes_trans; [exact Hq|]. eapply subnodes_child; [exact Hi|apply subnodes_self]. }
    assert (Hmk : ∀ q, q ∈ subnodes decl → NIdent i ∈ node_children q →
       match q with NImportSpec _ _ _ _ | NSelectorExpr _ _ => False | _ => True end →
       NIdent i ∈ subnodes decl ∧ (match par with NField _ _ [] _ => False | _ => True end →
       ∃ q, q ∈ subnodes decl ∧ NIdent i ∈ node_children q ∧ match q with NImportSpec _ _ _ _ | NSelectorExpr _ _ => False | _ => True end)).
    { intros q H1 H2 H3. split; [by eapply Hsub|]. intros _. by exists q. }
    assert (Hspec : ∀ p tok doc specs s q, decl = NGenDecl p tok doc specs → s ∈ specs → q ∈ subnodes s → q ∈ subnodes decl).
    { intros p' tok doc specs s q -> Hs Hq. eapply subnodes_child; [|exact Hq]. exact Hs. }
    assert (Hfield : ∀ p doc specs sd T tps t fields fl, decl = NGenDecl p TYPE doc specs →
       NTypeSpec sd T tps t ∈ specs → NFieldList fields ∈ node_children t → fl ∈ fields → fl ∈ subnodes decl).
    { intros p' doc specs sd T tps t fields fl -> Hs Ht Hfl. eapply Hspec; [done|exact Hs|].
      eapply subnodes_child; [right; right; left|]. eapply subnodes_child; [exact Ht|].
      eapply subnodes_child; [exact Hfl|apply subnodes_self]. }
    destruct Hd as [p' doc specs sd nm' tps t Hs|doc p' e nm' t b|doc p' e fd fc fn rt rest nm' t b r Hr
      |p' tok doc specs sd sc names t vs nm' Htok Hs Hnm|p' doc specs sd T tps ptr sp fields fd fc names ft nm' Hs Hf Hnm
      |p' doc specs sd T tps ptr sp fields fd fc ft nm' Hs Hf He|p' doc specs sd T tps ptr sp fields fd fc names ft nm' Hs Hf Hnm].
    - apply (Hmk (NTypeSpec sd nm' tps t)); [eapply Hspec; [done|exact Hs|apply subnodes_self]|left|done].
    - eapply Hmk; [apply subnodes_self|left|done].
    - eapply Hmk; [apply subnodes_self|right; left|done].
    - apply (Hmk (NValueSpec sd sc names t vs)); [eapply Hspec; [done|exact Hs|apply subnodes_self]| |done].
      cbn. apply elem_of_app. left. by apply elem_of_list_fmap_1.
    - apply (Hmk (NField fd fc names ft)); [eapply Hfield; [done|exact Hs|left|exact Hf]| |done].
      cbn. apply elem_of_app. left. by apply elem_of_list_fmap_1.
    - split; [|done]. assert (NField fd fc [] ft ∈ subnodes (NGenDecl p' TYPE doc specs)) as Hsf
        by (eapply Hfield; [done|exact Hs|left|exact Hf]).
      eapply subnodes_trans; [exact Hsf|]. eapply subnodes_child; [left|].
      clear -He. induction He as [i|x i|q x i He IH|x k i He IH|x l i He IH].
      + left.
      + eapply subnodes_child; [right; left|apply subnodes_self].
      + eapply subnodes_child; [left|exact IH].
      + eapply subnodes_child; [left|exact IH].
      + eapply subnodes_child; [left|exact IH].
    - apply (Hmk (NField fd fc names ft)); [eapply Hfield; [done|exact Hs|left|exact Hf]| |done].
      cbn. apply elem_of_app. left. by apply elem_of_list_fmap_1. }
  destruct Hq as [Hs Hq]. split.
  - eapply subnodes_child; [|exact Hs]. by right.
  - intros Hpar. destruct (Hq Hpar) as (q & H1 & H2 & H3). exists q. split; [|done].
    unfold file_nodes. cbn [file_decls]. apply elem_of_concat_map. exists decl. split; [done|].
    apply with_parent_elem. right. eauto.
Qed.

Lemma pos_not_clause p first rest f i k par : p_syntax p = first :: rest → f ∈ p_syntax p → wf_pkg_pos p →
  (∃ a b c d e, first = NFile a b c d e) →
  file_declares f i k par → (0 < id_pos i)%Z → id_pos i ≠ id_pos (file_ident first).
Proof.
  intros Hsy Hf [Hwf Hsep] (a & b & c & nm0 & decls0 & ->) Hd Hpos E. cbn in E.
  assert (Hnm : id_pos i ∈ poss (NFile a b c nm0 decls0)).
  { apply (poss_child _ (NIdent nm0)); [left|]. unfold poss. cbn. rewrite E. left. }
  pose proof Hd as (p1 & hd1 & d1 & nm1 & decls1 & decl & -> & Hdecl & Hdd).
  destruct (declares_child _ _ _ _ Hd) as [_ _].
  assert (Hi : id_pos i ∈ poss decl).
  { assert (file_declares (NFile 1 false "" nm1 [decl]) i k par) as Hd1 by (eexists _, _, _, _, _, _; split; [done|]; split; [left|done]).
    destruct (declares_child _ _ _ _ Hd1) as [Hs _].
    apply subnodes_elem in Hs as [Hs|(c1 & Hc1 & Hs)]; [done|]. cbn in Hc1.
    apply elem_of_cons in Hc1 as [->|Hc1].
    - (* the clause identifier itself: then also below decl *)
      clear Hs. revert Hdd. intros Hdd.
      assert (file_declares (NFile 1 false "" (mk 0 "" (-1)) [decl]) i k par) as Hd2 by (eexists _, _, _, _, _, _; split; [done|]; split; [left|done]).
      destruct (declares_child _ _ _ _ Hd2) as [Hs _].
      apply subnodes_elem in Hs as [Hs|(c1 & Hc1 & Hs)]; [done|]. cbn in Hc1.
      apply elem_of_cons in Hc1 as [->|Hc1].
      + cbn in Hs. apply elem_of_list_singleton in Hs. injection Hs as ->. cbn in Hpos. lia.
      + apply elem_of_list_singleton in Hc1 as ->. unfold poss. apply elem_of_list_fmap. by exists (NIdent i).
    - apply elem_of_list_singleton in Hc1 as ->. unfold poss. apply elem_of_list_fmap. by exists (NIdent i). }
  rewrite Hsy in Hf, Hsep. apply elem_of_cons in Hf as [Hf|Hf].
  - injection Hf as -> -> -> -> ->.
    specialize (Hwf (NFile a b c nm0 decls0)). rewrite Hsy in Hwf. specialize (Hwf (elem_of_list_here _ _)).
    specialize (Hwf _ (subnodes_self _)). cbn in Hwf. destruct Hwf as [Hwf _].
    apply (Hwf decl Hdecl (id_pos i) Hpos); [|done]. unfold poss. cbn. rewrite E. left.
  - cbn in Hsep. destruct Hsep as [Hsep _]. apply (Hsep _ Hf (id_pos i) Hpos Hnm).
    eapply poss_child; [|exact Hi]. by right.
Qed.

Lemma final_entry g0 g p f i k par : tables_ok digest env fs h all ps g0 → same_tables g0 g →
  p ∈ ps → f ∈ p_syntax p → file_declares f i k par → wf_pkg_pos p →
  (is_value_key k = true → common_before p i) → (0 < id_pos i)%Z →
  ∃ m tbl info, p_module p = Some m ∧ g_symbols g !! p_path p = Some (p, tbl) ∧ tbl !! id_pos i = Some info ∧
    i_symbol info = key_symbol (p_path p) m k.
Proof.
  intros Htab Hst Hp Hf Hd Hwf Hcv Hpos.
  destruct (tk_proj _ _ _ _ _ _ _ Htab p Hp) as (tbl0 & Hg & Ht).
  unfold pass1_table in Ht. destruct (p_syntax p) as [|first rest] eqn:Hsy; [by apply elem_of_nil in Hf|].
  destruct (tpj_info _ _ _ _ (ix_typed _ _ _ _ _ _ Hix) p f Hp) as (ti & name & Hti & _); [by rewrite Hsy|].
  rewrite Hti in Ht. destruct Ht as (tbl1 & m & Hv & Hm & ->).
  assert (pkg_declares_by p i k par) as Hpd. { exists f. rewrite Hsy. done. }
  destruct (declared_entry digest ti fs env p tbl1 i k par Hwf Hpd Hcv Hpos Hv) as (m' & info & e & Hm' & Hl & Hs & _).
  assert (m' = m) as -> by congruence.
  assert (Hne : id_pos i ≠ id_pos (file_ident first)).
  { eapply pos_not_clause; [exact Hsy|by rewrite Hsy|done| |done|done].
    destruct (tpj_info _ _ _ _ (ix_typed _ _ _ _ _ _ Hix) p first Hp) as (ti' & name' & _ & Htf & _); [rewrite Hsy; left|].
    destruct (wff_file _ _ _ _ (tf_wf _ _ _ _ _ Htf)) as (a & b & c & d & e' & ->). eauto 10. }
  destruct (same_tables_lookup _ _ _ _ _ Hst Hg) as (tbl & Hg' & Hsame).
  specialize (Hsame (id_pos i)). rewrite pset_other in Hsame by done. rewrite Hl in Hsame.
  destruct (tbl !! id_pos i) as [info'|] eqn:El; [|done]. destruct Hsame as (Hsym & _).
  exists m, tbl, info'. split; [done|]. split; [done|]. split; [done|]. congruence.
Qed.

(** C53: every package-level declaration of every project file is described in the document
    of its file, under its documented symbol; and, for a named (not embedded) declaration
    that go/types recorded, there is a definition occurrence with that symbol that covers
    exactly the identifier. *)
Theorem C53_declarations_in_index : ∀ p f i k par,
  p ∈ ps → f ∈ p_syntax p → file_declares f i k par → wf_pkg_pos p →
  (is_value_key k = true → common_before p i) → (0 < id_pos i)%Z →
  ∃ m d, p_module p = Some m ∧ document_of ps (documents msgs) p f d ∧
    (∃ info, info ∈ d_symbols d ∧ i_symbol info = key_symbol (p_path p) m k) ∧
    (∀ ti def, p_info p = Some ti → ti_defs ti (id_ptr i) = Some def → ti_uses ti (id_ptr i) = None →
       (∀ o, o ∈ ti_case_objs ti → o_pos o ≠ id_pos i) → id_name i ≠ "_" →
       (match par with NField _ _ [] _ => False | _ => True end) →
       ∃ o, o ∈ d_occs d ∧ is_def o ∧ oc_symbol o = key_symbol (p_path p) m k ∧ oc_range o = ident_span fs i).
Proof.
  intros p f i k par Hp Hf Hd Hwf Hcv Hpos.
  destruct success as (ds & exts & g0 & g & kk & -> & Htab & _ & Hst & Hds). rewrite documents_msgs.
  destruct (final_entry g0 g p f i k par Htab Hst Hp Hf Hd Hwf Hcv Hpos) as (m & tbl & info & Hm & Hg & Hl & Hs).
  assert ((p, f) ∈ files_in_order ps) as [n Hi]%elem_of_list_lookup by by apply files_elem.
  destruct (Forall2_lookup_l _ _ _ _ _ Hds Hi) as (d & Hdn & Hdoc). cbn in Hdoc.
  destruct (declares_child _ _ _ _ Hd) as [Hsub Hchild].
  destruct Hdoc as (ti & tbl' & st & sym & name & torder & lorder & Hti & Hname & Hg' & _ & Hv & Hto & Hlo & ->).
  assert (tbl' = tbl) as -> by congruence.
  exists m. eexists. split; [done|]. split; [exists n; done|]. split.
  - exists info. split; [|done]. cbn [to_document d_symbols]. apply elem_of_app. left. apply elem_of_list_fmap.
    exists (id_pos i, info). split; [done|]. unfold symbols_for_file. apply elem_of_list_filter. cbn. split.
    + eapply (ix_idents _ _ _ _ _ _ Hix); [exact Hp|exact Hf|exact Hname|done].
    + rewrite Hto. by apply elem_of_map_to_list.
  - intros ti' def Hti' Hdef Hnu Hcase Hnb Hpar. assert (ti' = ti) as -> by congruence.
    destruct (tpj_info _ _ _ _ (ix_typed _ _ _ _ _ _ Hix) p f Hp Hf) as (ti' & name' & Hti2 & Htf & Hdi & _).
    assert (ti' = ti) as -> by congruence.
    destruct (Hchild Hpar) as (q & Hq & Hqk).
    pose proof (lk_answers env _ root version g _ _ _ _ Htf) as Ha.
    destruct (visited_occs _ _ _ _ _ _ _ _ _ _ _ _ _ Htf Ha st Hv) as (_ & Ho & _).
    apply elem_of_list_split in Hq as (a1 & b1 & E1).
    exists (Definition_ (i_symbol info) (ident_span fs i) (enclosing fs (Some q) i) (docs_deprecated (i_documentation info))).
    cbn [to_document d_occs]. rewrite Ho, E1. split; [|split; [done|split; [exact Hs|done]]].
    right. apply nsoccs_elem. eexists a1, _, b1. split; [done|].
    eapply (def_occ g fs p ti tbl (imports_of h p) (lk env root version g)).
    + unfold plain_ident, hidden, names_package. rewrite Hnu.
      destruct (String.eqb_spec (id_name i) "_") as [Hbl|_]; [by destruct Hnb|]. by destruct q.
    + unfold switch_object. destruct (List.find _ _) as [o|] eqn:Ef; [|done].
      apply find_some in Ef as [Ef1 Ef2]. apply Z.eqb_eq in Ef2. exfalso. eapply Hcase; [by apply elem_of_list_In|done].
    + exact Hdef.
    + unfold registered. rewrite (proj1 Hdi _ _ Hsub Hdef), Hl. done.
Qed.

(** C54: a use, in any project file, of an object declared at package level in any project
    file, is a reference occurrence with the declared symbol. *)
Theorem C54_references_in_index : ∀ p1 f1 i k par p2 f2 ti2 par2 i2 o tp,
  p1 ∈ ps → f1 ∈ p_syntax p1 → file_declares f1 i k par → wf_pkg_pos p1 →
  (is_value_key k = true → common_before p1 i) → (0 < id_pos i)%Z →
  p2 ∈ ps → f2 ∈ p_syntax p2 → p_info p2 = Some ti2 →
  (Some par2, NIdent i2) ∈ file_nodes f2 →
  match par2 with NImportSpec _ _ _ _ | NSelectorExpr (NIdent _) _ => False | _ => True end ∨
    (∃ x s path, par2 = NSelectorExpr (NIdent x) s ∧ ti_uses ti2 (id_ptr x) = Some path ∧ ∀ pp, o_kind path ≠ OPkgName pp) ∨
    (∃ x s pn imp, par2 = NSelectorExpr (NIdent x) s ∧ ti_uses ti2 (id_ptr x) = Some pn ∧ o_kind pn = OPkgName imp ∧ is_Some (all !! imp)) →
  id_name i2 ≠ "_" → ti_uses ti2 (id_ptr i2) = Some o →
  (** o is the object declared by i *)
  o_pos o = id_pos i → o_pkg o = Some tp → tp_path tp = p_path p1 → p_path p1 ≠ "unsafe" →
  (∀ pp, o_kind o ≠ OPkgName pp) → o_kind o ≠ OLabel → o_kind o ≠ ONil →
  (** case clause objects are declared elsewhere *)
  (∀ c, c ∈ ti_case_objs ti2 → o_pos c ≠ id_pos i ∧ o_pos c ≠ id_pos i2) →
  (** identifiers at the position of the declaration are in the declaring package *)
  (p1 = p2 ∨ ∀ i', NIdent i' ∈ subnodes f2 → id_pos i' ≠ id_pos i) →
  ∃ m d ref, p_module p1 = Some m ∧ document_of ps (documents msgs) p2 f2 d ∧
    ref ∈ d_occs d ∧ oc_roles ref = role_read_access ∧ oc_symbol ref = key_symbol (p_path p1) m k ∧
    oc_range ref = ident_span fs i2.
Proof.
  intros p1 f1 i k par p2 f2 ti2 par2 i2 o tp Hp1 Hf1 Hd Hwf Hcv Hpos Hp2 Hf2 Hti2 Hn2 Hpar Hnb Hu Hop Hpk Htp Hun Hnp Hk1 Hk2 Hcase Hother.
  destruct success as (ds & exts & g0 & g & kk & -> & Htab & _ & Hst & Hds). rewrite documents_msgs.
  destruct (final_entry g0 g p1 f1 i k par Htab Hst Hp1 Hf1 Hd Hwf Hcv Hpos) as (m & tbl1 & info & Hm & Hg1 & Hl & Hs).
  assert ((p2, f2) ∈ files_in_order ps) as [n Hi]%elem_of_list_lookup by by apply files_elem.
  destruct (Forall2_lookup_l _ _ _ _ _ Hds Hi) as (d & Hdn & Hdoc). cbn in Hdoc.
  destruct Hdoc as (ti & tbl & st & sym & name & torder & lorder & Hti & Hname & Hg' & _ & Hv & Hto & Hlo & ->).
  assert (ti = ti2) as -> by congruence.
  destruct (tpj_info _ _ _ _ (ix_typed _ _ _ _ _ _ Hix) p2 f2 Hp2 Hf2) as (ti' & name' & Hti' & Htf & Hdi & _).
  assert (ti' = ti2) as -> by congruence.
  pose proof (lk_answers env _ root version g _ _ _ _ Htf) as Ha.
  destruct (visited_occs _ _ _ _ _ _ _ _ _ _ _ _ _ Htf Ha st Hv) as (_ & Ho & _).
  apply elem_of_list_split in Hn2 as (a2 & b2 & E2).
  assert (Hplain : plain_ident g ti2 (Some par2, NIdent i2) = Some i2).
  { unfold plain_ident. assert (names_package ti2 i2 = None) as ->.
    { unfold names_package. rewrite Hu. destruct (o_kind o) eqn:Ek; try done. by destruct (Hnp imported_path). }
    assert (hidden g ti2 (Some par2) = false) as ->.
    { unfold hidden, names_package. destruct Hpar as [Hpar|[(x & s & u & -> & Hux & Hnk)|(x & s & pn & imp & -> & Hux & Hpn & Himp)]].
      - destruct par2; try done. by destruct par2.
      - rewrite Hux. destruct (o_kind u) eqn:Ek; try done. by destruct (Hnk imported_path).
      - rewrite Hux, Hpn. destruct Himp as [q Hq]. destruct (ix_loaded _ _ _ _ _ _ Hix) as (Hka & _).
        destruct (Hka _ _ Hq) as (pp & mm & Hh & Hpp & Hmm). rewrite <-(proj1 Hst).
        by rewrite (tk_syms _ _ _ _ _ _ _ Htab _ _ _ _ Hq Hh Hmm). }
    by destruct (String.eqb_spec (id_name i2) "_") as [Hbl|_]; [destruct Hnb|]. }
  assert (Hnl : id_pos i ∉ map fst (local_defs g p2 ti2 tbl f2)).
  { destruct Hother as [<-|Hother].
    - eapply C11_same_package_not_local; [|intros c Hc; by apply Hcase]. assert (tbl = tbl1) as -> by congruence. exact Hl.
    - eapply C11_other_file_not_local; [exact Htf|exact Hdi|exact Hother]. }
  assert (Hsw : switch_object ti2 i2 = None).
  { unfold switch_object. destruct (List.find _ _) as [c|] eqn:Ef; [|done].
    apply find_some in Ef as [Ef1 Ef2]. apply Z.eqb_eq in Ef2. exfalso. apply elem_of_list_In, Hcase in Ef1 as [_ Ef1]. done. }
  exists m. eexists _, (Reference (i_symbol info) (ident_span fs i2) (docs_deprecated (i_documentation info))).
  split; [done|]. split; [exists n; done|]. cbn [to_document d_occs]. rewrite Ho, E2.
  split; [|split; [reflexivity|split; [exact Hs|reflexivity]]].
  right. apply nsoccs_elem. eexists a2, _, b2. split; [done|].
  pose proof (use_occ g fs p2 ti2 tbl (imports_of h p2) (lk env root version g)
    ([] ++ omap (local_def g p2 ti2 tbl) a2) (Some par2) i2 o Hplain Hsw Hu) as H. cbn zeta in H.
  assert (index_of (o_pos o) (([] ++ omap (local_def g p2 ti2 tbl) a2) ++ option_list (local_def g p2 ti2 tbl (Some par2, NIdent i2))) = None) as Hixn.
  { apply index_of_none. rewrite Hop. intros Hin. apply Hnl. unfold local_defs. rewrite E2, omap_app, List.map_app.
    cbn in Hin. rewrite List.map_app in Hin. apply elem_of_app in Hin as [Hin|Hin]; apply elem_of_app; [by left|right].
    unfold omap. cbn. destruct (local_def g p2 ti2 tbl (Some par2, NIdent i2)); cbn in *; [|by apply elem_of_nil in Hin].
    apply elem_of_list_singleton in Hin as ->. left. }
  rewrite Hixn in H. apply (H info).
  pose proof (tf_uses _ _ _ _ _ Htf _ _ Hu Hnp) as Hgo.
  assert (Hr : resolves env root version g o (Found info)).
  { eapply rs_own; [done|done|exact Hpk|by rewrite Htp|]. rewrite Htp, Hop. by exists p1, tbl1. }
  apply (answer_resolves env objs g root version o _ Hgo) in Hr. unfold lk. by rewrite Hr.
Qed.

(** *** The entries of the final tables *)
Lemma same_path p p' : p ∈ ps → p' ∈ ps → p_path p = p_path p' → p = p'.
Proof.
  intros Hp Hp' E. destruct (ix_order _ _ _ _ _ _ Hix) as [_ Hin].
  destruct (Hin _ Hp) as (q & Hq & Hh). destruct (Hin _ Hp') as (q' & Hq' & Hh'). congruence.
Qed.
Lemma pass1_entry g0 g p tbl pos i : tables_ok digest env fs h all ps g0 → same_tables g0 g →
  p ∈ ps → g_symbols g !! p_path p = Some (p, tbl) → tbl !! pos = Some i →
  ∃ m first rest, p_module p = Some m ∧ p_syntax p = first :: rest ∧
    ((∃ ds, ds ≠ [] ∧ i_symbol i = format_symbol (Sym "scip-go" (SPkg "gomod" (m_path m) (m_version m)) (Desc (p_path p) Namespace :: ds))) ∨
     (pos = id_pos (file_ident first) ∧ i_symbol i = package_symbol m (p_path p) ∧ i_documentation i = find_package_docs fs p ∧
      i_kind i = KPackage ∧ i_display_name i = p_name p)).
Proof.
  intros Htab Hst Hp Hg Hl. destruct (tk_proj _ _ _ _ _ _ _ Htab p Hp) as (tbl0 & Hg0 & Ht).
  destruct (same_tables_lookup _ _ _ _ _ Hst Hg0) as (tbl' & Hg' & Hsame). assert (tbl' = tbl) as -> by congruence.
  specialize (Hsame pos). rewrite Hl in Hsame. destruct (tbl0 !! pos) as [i0|] eqn:E0; [|done].
  destruct Hsame as (H1 & H2 & H3 & H4 & _). unfold pass1_table in Ht.
  destruct (p_syntax p) as [|first rest] eqn:Hsy; [subst; by rewrite lookup_empty in E0|].
  destruct (p_info p) as [ti|]; [|done]. destruct Ht as (tbl1 & m & Hv & Hm & ->).
  exists m, first, rest. split; [done|]. split; [done|].
  unfold pset in E0.
  assert (Hcases : tbl1 !! pos = Some i0 ∨ (pos = id_pos (file_ident first) ∧ i0 = Info (package_symbol m (p_path p)) (find_package_docs fs p) [] KPackage (p_name p)
                (Some ("package " +:+ p_name p)) "")).
  { destruct (tbl1 !! id_pos (file_ident first)) as [y|]; [destruct (String.eqb _ _)|]; [by left| |];
      rewrite lookup_insert_Some in E0; (destruct E0 as [[<- <-]|[_ E0]]; [by right|by left]). }
  destruct Hcases as [Hc|[-> ->]].
  - left. destruct (table_entries digest ti fs env p m tbl1 pos i0 Hm Hv Hc) as (ds & Hds & Es). exists ds. split; [done|]. congruence.
  - right. cbn in *. done.
Qed.
Lemma clause_entry g0 g p first rest m : tables_ok digest env fs h all ps g0 → same_tables g0 g →
  p ∈ ps → p_syntax p = first :: rest → p_module p = Some m → clean_module m →
  ∃ tbl i, g_symbols g !! p_path p = Some (p, tbl) ∧ tbl !! id_pos (file_ident first) = Some i ∧
    i_symbol i = package_symbol m (p_path p) ∧ i_documentation i = find_package_docs fs p ∧ i_kind i = KPackage ∧
    i_display_name i = p_name p.
Proof.
  intros Htab Hst Hp Hsy Hm Hcl. destruct (tk_proj _ _ _ _ _ _ _ Htab p Hp) as (tbl0 & Hg0 & Ht).
  destruct (same_tables_lookup _ _ _ _ _ Hst Hg0) as (tbl & Hg & Hsame).
  unfold pass1_table in Ht. rewrite Hsy in Ht. destruct (p_info p) as [ti|]; [|done].
  destruct Ht as (tbl1 & m' & Hv & Hm' & ->). assert (m' = m) as -> by congruence.
  specialize (Hsame (id_pos (file_ident first))). rewrite pset_lookup in Hsame. cbn [i_symbol] in Hsame.
  assert (E : match tbl1 !! id_pos (file_ident first) with
     | Some y => if String.eqb (i_symbol y) (package_symbol m (p_path p)) then Some y
        else Some (Info (package_symbol m (p_path p)) (find_package_docs fs p) [] KPackage (p_name p) (Some ("package " +:+ p_name p)) "")
     | None => Some (Info (package_symbol m (p_path p)) (find_package_docs fs p) [] KPackage (p_name p) (Some ("package " +:+ p_name p)) "") end
     = Some (Info (package_symbol m (p_path p)) (find_package_docs fs p) [] KPackage (p_name p) (Some ("package " +:+ p_name p)) "")).
  { destruct (tbl1 !! _) as [y|] eqn:Ey; [|done]. destruct (String.eqb_spec (i_symbol y) (package_symbol m (p_path p))) as [Es|_]; [|done].
    exfalso. destruct (table_entries digest ti fs env p m tbl1 _ y Hm Hv Ey) as (ds & Hds & Es'). rewrite Es in Es'.
    unfold package_symbol in Es'. apply format_symbol_inj_descs in Es'; [|by apply clean_module_symbol].
    injection Es' as <-. done. }
  rewrite E in Hsame. destruct (tbl !! _) as [i|] eqn:El; [|done]. destruct Hsame as (H1 & H2 & H3 & H4 & _). cbn in *.
  exists tbl, i. done.
Qed.

Lemma filter_singleton {A} (P : A → Prop) `{∀ x, Decision (P x)} (l : list A) a :
  NoDup l → a ∈ l → P a → (∀ b, b ∈ l → P b → b = a) → filter P l = [a].
Proof.
  intros Hnd Hin Ha Hu. apply elem_of_list_split in Hin as (l1 & l2 & ->).
  apply NoDup_app in Hnd as (_ & Hd & Hnd2). apply NoDup_cons in Hnd2 as [Hn2 _].
  rewrite filter_app, filter_cons_True by done.
  assert (filter P l1 = []) as ->.
  { assert (∀ b, b ∈ l1 → ¬ P b) as H'. { intros b Hb HP. assert (b = a) as -> by (apply Hu; [apply elem_of_app; by left|done]). by apply (Hd a Hb); left. }
    clear -H'. induction l1 as [|b l IH]; [done|]. rewrite filter_cons_False by (apply H'; left). apply IH. intros. apply H'. by right. }
  assert (filter P l2 = []) as ->; [|done].
  assert (∀ b, b ∈ l2 → ¬ P b) as H'. { intros b Hb HP. assert (b = a) as -> by (apply Hu; [apply elem_of_app; right; by right|done]). done. }
  clear -H'. induction l2 as [|b l IH]; [done|]. rewrite filter_cons_False by (apply H'; left). apply IH. intros. apply H'. by right.
Qed.
Lemma filter_none {A} (P : A → Prop) `{∀ x, Decision (P x)} (l : list A) : (∀ b, b ∈ l → ¬ P b) → filter P l = [].
Proof. intros H'. induction l as [|b l IH]; [done|]. rewrite filter_cons_False by (apply H'; left). apply IH. intros. apply H'. by right. Qed.
Lemma filter_map_snd (P : syminfo → Prop) `{∀ x, Decision (P x)} (l : list (Z * syminfo)) :
  filter P (map snd l) = map snd (filter (λ e, P e.2) l).
Proof. induction l as [|e l IH]; [done|]. cbn [map]. rewrite !filter_cons. rewrite IH. destruct (decide (P e.2)); done. Qed.

(** C20: in the whole index exactly one symbol information has the symbol of a project
    package; it is in the document of the package's first file and has the package's
    documentation, name and kind. *)
Theorem C20_described_once : ∀ p first rest m,
  p ∈ ps → p_syntax p = first :: rest → p_module p = Some m →
  (∀ p m, p ∈ ps → p_module p = Some m → clean_module m) →
  ∃ i d,
    filter (λ i, i_symbol i = package_symbol m (p_path p)) (List.concat (map d_symbols (documents msgs))) = [i] ∧
    document_of ps (documents msgs) p first d ∧ i ∈ d_symbols d ∧
    i_documentation i = find_package_docs fs p ∧ i_kind i = KPackage ∧ i_display_name i = p_name p.
Proof.
  intros p first rest m Hp Hsy Hm Hclean.
  destruct success as (ds & exts & g0 & g & kk & -> & Htab & _ & Hst & Hds). rewrite documents_msgs.
  destruct (clause_entry g0 g p first rest m Htab Hst Hp Hsy Hm (Hclean _ _ Hp Hm)) as (tbl & i & Hg & Hl & Hs & Hdoc & Hkind & Hname).
  set (S := package_symbol m (p_path p)) in *.
  assert (Hfirst : first ∈ p_syntax p) by (rewrite Hsy; left).
  assert ((p, first) ∈ files_in_order ps) as [n0 Hi]%elem_of_list_lookup by by apply files_elem.
  destruct (Forall2_lookup_l _ _ _ _ _ Hds Hi) as (d & Hdn & Hdoc0).
  assert (Hper : ∀ n e d', files_in_order ps !! n = Some e → document_for env objs root version fs h objstr g e.1 e.2 d' →
    filter (λ i, i_symbol i = S) (d_symbols d') = if decide (n = n0) then [i] else []).
  { intros n [p' f'] d' Hn' Hd'. cbn [fst snd] in Hd'.
    destruct Hd' as (ti & tbl' & st & sym & name & torder & lorder & Hti & Hfn & Hg' & _ & Hv & Hto & Hlo & ->).
    pose proof (elem_of_list_lookup_2 _ _ _ Hn') as [Hp' Hf']%files_elem.
    destruct (tpj_info _ _ _ _ (ix_typed _ _ _ _ _ _ Hix) p' f' Hp' Hf') as (ti' & name' & Hti' & Htf & _ & Hfn').
    assert (ti' = ti) as -> by congruence.
    pose proof (lk_answers env _ root version g _ _ _ _ Htf) as Ha.
    destruct (visited_occs _ _ _ _ _ _ _ _ _ _ _ _ _ Htf Ha st Hv) as (_ & _ & Hinv).
    cbn [to_document d_symbols]. rewrite filter_app.
    assert (filter (λ i0, i_symbol i0 = S) (map (λ l : Z * local, local_info env ti objstr l.2) lorder) = []) as ->.
    { apply filter_none. intros b (e & -> & He)%elem_of_list_fmap Hb. cbn in Hb.
      rewrite Hlo in He. destruct e as [pz l]. apply elem_of_map_to_list in He. cbn in Hb.
      rewrite (iv_locals _ _ _ _ _ _ _ Hinv) in He. destruct (index_of pz _) as [k|]; [|done].
      destruct (_ !! k); [|done]. injection He as <-. cbn in Hb.
      apply (global_not_local S); [|rewrite <-Hb; apply local_name_local].
      apply has_prefix_spec. eexists. unfold S, package_symbol, format_symbol. cbn [s_scheme].
      change "scip-go " with ("scip-go" +:+ " "). rewrite <- app_assoc. change (format_field "scip-go") with "scip-go". f_equal. }
    rewrite List.app_nil_r, filter_map_snd. unfold symbols_for_file. rewrite list_filter_filter.
    assert (Hent : ∀ e, e ∈ torder → i_symbol e.2 = S → p' = p ∧ e.1 = id_pos (file_ident first)).
    { intros [pz y] He Hy. cbn in Hy. rewrite Hto in He. apply elem_of_map_to_list in He.
      destruct (pass1_entry g0 g p' tbl' pz y Htab Hst Hp' Hg' He) as (m' & first' & rest' & Hm' & Hsy' & Hcase).
      pose proof (Hclean _ _ Hp Hm) as Hc. pose proof (Hclean _ _ Hp' Hm') as Hc'.
      destruct Hcase as [(ds' & Hds' & Es)|(-> & Es & _)].
      - exfalso. rewrite Hy in Es. unfold S, package_symbol in Es.
        apply format_symbol_inj in Es; [|by apply clean_module_symbol|by apply clean_module_symbol].
        unfold normal_symbol in Es. cbn in Es. injection Es as _ _ _ <-. done.
      - assert (p' = p) as ->.
        { apply same_path; [done|done|]. rewrite Hy in Es. unfold S, package_symbol in Es.
          apply format_symbol_inj in Es; [|by apply clean_module_symbol|by apply clean_module_symbol].
          unfold normal_symbol in Es. cbn in Es. injection Es as _ _ Ep. done. }
        split; [done|]. cbn. assert (first' = first) as -> by congruence. done. }
    assert (Hndt : NoDup torder). { rewrite Hto. apply NoDup_map_to_list. }
    case_decide as Hnn.
    - subst n. assert (p' = p ∧ f' = first) as [-> ->] by (rewrite Hn' in Hi; by injection Hi).
      assert (tbl' = tbl) as -> by congruence.
      rewrite (filter_singleton _ torder (id_pos (file_ident first), i)); [done|done| | |].
      + rewrite Hto. by apply elem_of_map_to_list.
      + cbn. split; [done|]. eapply (ix_idents _ _ _ _ _ _ Hix); [exact Hp|exact Hfirst|exact Hfn|].
        destruct (wff_file _ _ _ _ (tf_wf _ _ _ _ _ Htf)) as (a & b & c & nm & decls & ->). cbn. right. left.
      + intros [pz y] He [Hy _]. cbn in Hy. destruct (Hent _ He Hy) as [_ Hpz]. cbn in Hpz. subst pz.
        rewrite Hto in He. apply elem_of_map_to_list in He. congruence.
    - rewrite filter_none; [done|]. intros [pz y] He [Hy Hfile]. cbn in Hy, Hfile. destruct (Hent _ He Hy) as [-> Hpz]. cbn in Hpz. subst pz.
      apply Hnn. destruct (tpj_info _ _ _ _ (ix_typed _ _ _ _ _ _ Hix) p first Hp Hfirst) as (ti1 & name1 & _ & Htf1 & _ & Hfn1).
      assert (fs_file fs (id_pos (file_ident first)) = Some name1) as Hfc.
      { eapply (ix_idents _ _ _ _ _ _ Hix); [exact Hp|exact Hfirst|exact Hfn1|].
        destruct (wff_file _ _ _ _ (tf_wf _ _ _ _ _ Htf1)) as (a & b & c & nm & decls & ->). cbn. right. left. }
      assert (name1 = name) as -> by congruence.
      exact (tpj_files _ _ _ _ (ix_typed _ _ _ _ _ _ Hix) _ _ _ _ _ _ _ Hn' Hi Hfn Hfn1). }
  exists i, d. split_and!; try done.
  - assert (Hlen : n0 < length (files_in_order ps)) by by eapply lookup_lt_Some.
    assert (Hall : ∀ k l es, (∀ n e d', es !! n = Some e → document_for env objs root version fs h objstr g e.1 e.2 d' →
          filter (λ i, i_symbol i = S) (d_symbols d') = if decide (k + n = n0) then [i] else []) →
        Forall2 (λ e d, document_for env objs root version fs h objstr g e.1 e.2 d) es l →
        filter (λ i, i_symbol i = S) (List.concat (map d_symbols l)) = if decide (k <= n0 < k + length es) then [i] else []).
    { intros k l es. revert k l. induction es as [|e es IH]; intros k l Hp0 Hf2.
      - apply Forall2_nil_inv_l in Hf2 as ->. cbn. case_decide; [lia|done].
      - apply Forall2_cons_inv_l in Hf2 as (d' & l' & Hd' & Hl' & ->). cbn [map List.concat]. rewrite filter_app.
        rewrite (Hp0 0 e d' eq_refl Hd').
        assert (Hp1 : ∀ n e d', es !! n = Some e → document_for env objs root version fs h objstr g e.1 e.2 d' →
          filter (λ i, i_symbol i = S) (d_symbols d') = if decide (Datatypes.S k + n = n0) then [i] else []).
        { intros n e' d'' Hn'' Hd''. rewrite (Hp0 (Datatypes.S n) e' d'' Hn'' Hd''). repeat case_decide; try lia; done. }
        rewrite (IH (Datatypes.S k) l' Hp1 Hl').
        cbn [length]. repeat case_decide; try lia; done. }
    rewrite (Hall 0 ds (files_in_order ps)); [|intros n e d' H1 H2; exact (Hper n e d' H1 H2)|done]. case_decide; [done|lia].
  - by exists n0.
  - specialize (Hper n0 (p, first) d Hi Hdoc0). rewrite decide_True in Hper by done.
    assert (i ∈ filter (λ i0, i_symbol i0 = S) (d_symbols d)) as He by (rewrite Hper; left).
    by apply elem_of_list_filter in He as [_ He].
Qed.

(** *** C09 and C10 for every document of the index *)
Lemma format_global m ds : is_global (format_symbol (Sym "scip-go" (SPkg "gomod" (m_path m) (m_version m)) ds)).
Proof.
  apply has_prefix_spec. eexists. unfold format_symbol. cbn [s_scheme].
  change "scip-go " with ("scip-go" +:+ " "). rewrite <- app_assoc. change (format_field "scip-go") with "scip-go". f_equal.
Qed.
Lemma final_global g0 g p tbl : tables_ok digest env fs h all ps g0 → same_tables g0 g →
  p ∈ ps → g_symbols g !! p_path p = Some (p, tbl) → global_symbols g tbl.
Proof.
  intros Htab Hst Hp Hg.
  assert (Hent : ∀ p tbl pos i, p ∈ ps → g_symbols g !! p_path p = Some (p, tbl) → tbl !! pos = Some i → is_global (i_symbol i)).
  { intros p' tbl' pos i Hp' Hg' Hi. destruct (pass1_entry g0 g p' tbl' pos i Htab Hst Hp' Hg' Hi) as (m & first & rest & Hm & _ & [(ds & _ & ->)|(_ & -> & _)]); apply format_global. }
  split; [|split].
  - intros pos i Hi. by eapply Hent.
  - intros id p' t pos i Hid Hi. destruct (decide (id ∈ map p_path ps)) as [Hin|Hout].
    + apply elem_of_list_fmap in Hin as (p1 & -> & Hp1). destruct (tk_proj _ _ _ _ _ _ _ Htab p1 Hp1) as (t0 & Hg0 & _).
      destruct (same_tables_lookup _ _ _ _ _ Hst Hg0) as (t1 & Hg1 & _). assert (p' = p1 ∧ t = t1) as [-> ->] by (rewrite Hid in Hg1; by injection Hg1).
      by eapply Hent.
    + exfalso. destruct Hst as [_ Hst]. specialize (Hst id). rewrite Hid in Hst.
      destruct (g_symbols g0 !! id) as [[p0 t0]|] eqn:E0; [|done]. destruct Hst as [<- Hst].
      rewrite (tk_deps _ _ _ _ _ _ _ Htab id p0 t0 Hout E0) in Hst. specialize (Hst pos).
      rewrite lookup_empty in Hst. by rewrite Hi in Hst.
  - intros id s Hid. rewrite <-(proj1 Hst) in Hid. destruct (all !! id) as [q|] eqn:Eq.
    + destruct (ix_loaded _ _ _ _ _ _ Hix) as (Hka & _). destruct (Hka _ _ Eq) as (p1 & m & Hh & _ & Hm).
      rewrite (tk_syms _ _ _ _ _ _ _ Htab _ _ _ _ Eq Hh Hm) in Hid. injection Hid as <-. apply format_global.
    + by rewrite (tk_nosym _ _ _ _ _ _ _ Htab id Eq) in Hid.
Qed.

Theorem C09_locals_in_index : ∀ d, d ∈ documents msgs → ∃ n,
    map oc_symbol (filter (λ o, is_def o ∧ is_local (oc_symbol o)) (d_occs d)) = map local_name (List.seq 0 n) ∧
    filter is_local (map i_symbol (d_symbols d)) ≡ₚ map local_name (List.seq 0 n) ∧
    (∀ o, o ∈ d_occs d → is_local (oc_symbol o) → ∃ k, k < n ∧ oc_symbol o = local_name k).
Proof.
  intros d Hd. destruct success as (ds & exts & g0 & g & kk & -> & Htab & _ & Hst & Hds). rewrite documents_msgs in Hd.
  apply elem_of_list_lookup in Hd as [n Hn]. destruct (Forall2_lookup_r _ _ _ _ _ Hds Hn) as ([p f] & He & Hdoc). cbn in Hdoc.
  pose proof (elem_of_list_lookup_2 _ _ _ He) as [Hp Hf]%files_elem.
  destruct Hdoc as (ti & tbl & st & sym & name & torder & lorder & Hti & Hfn & Hg & Hsym & Hv & Hto & Hlo & ->).
  destruct (tpj_info _ _ _ _ (ix_typed _ _ _ _ _ _ Hix) p f Hp Hf) as (ti' & name' & Hti' & Htf & _).
  assert (ti' = ti) as -> by congruence.
  pose proof (final_global g0 g p tbl Htab Hst Hp Hg) as Hgl.
  destruct (C09_locals env objs root version g fs p ti tbl (imports_of h p) (clause_occurrence fs sym f) f st objstr (doc_relative_path root name) name torder lorder Htf Hgl) as (k & H1 & H2 & H3 & _); try done.
  - cbn. by apply (proj2 (proj2 Hgl) (p_path p)).
  - by exists k.
Qed.
Theorem C10_definitions_described_in_index : ∀ d, d ∈ documents msgs →
  ∃ clause occs, d_occs d = clause :: occs ∧
    ∀ o, o ∈ occs → is_def o → ∃ i, i ∈ d_symbols d ∧ i_symbol i = oc_symbol o.
Proof.
  intros d Hd. destruct success as (ds & exts & g0 & g & kk & -> & Htab & _ & Hst & Hds). rewrite documents_msgs in Hd.
  apply elem_of_list_lookup in Hd as [n Hn]. destruct (Forall2_lookup_r _ _ _ _ _ Hds Hn) as ([p f] & He & Hdoc). cbn in Hdoc.
  pose proof (elem_of_list_lookup_2 _ _ _ He) as [Hp Hf]%files_elem.
  destruct Hdoc as (ti & tbl & st & sym & name & torder & lorder & Hti & Hfn & Hg & Hsym & Hv & Hto & Hlo & ->).
  destruct (tpj_info _ _ _ _ (ix_typed _ _ _ _ _ _ Hix) p f Hp Hf) as (ti' & name' & Hti' & Htf & Hdi & _).
  assert (ti' = ti) as -> by congruence.
  destruct (C10_definitions_described env objs root version g fs p ti tbl (imports_of h p) (clause_occurrence fs sym f) f st objstr (doc_relative_path root name) name torder lorder Htf Hdi (ex_intro _ p Hg)) as (occs & H1 & H2); try done.
  - intros i Hi. by eapply (ix_idents _ _ _ _ _ _ Hix).
  - eauto.
Qed.
End Project.
Print Assumptions C21_index_no_crash.
Print Assumptions C38_emission_order.
Print Assumptions C42_every_file_has_document.
Print Assumptions C53_declarations_in_index.
Print Assumptions C54_references_in_index.
Print Assumptions C20_described_once.
Print Assumptions C09_locals_in_index.
Print Assumptions C10_definitions_described_in_index.
