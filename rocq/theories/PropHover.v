(** C61: the hover information of declared and of local symbols reaches the index. *)
From Coq Require Import Ascii String.
From stdpp Require Import prelude strings gmap sorting.
From Verif Require Import GoStr Scip GoTypes Packages Symbols Document Lookup Pass1 Pass2 Paths
  Loader Index Ast SpecSymbol SpecDecl SpecLookup SpecOcc SpecIndex
  P_Symbols P_Pass1 P_Link P_Lookup P_Pass2 P_Occ P_Scope P_Index P_Doc PropSymbols PropDecl PropOcc PropIndex PropCross ExDecl ExOcc ExIndex ExCross PropNav PropLocal Signature PropSig.
Open Scope string_scope.
Open Scope list_scope.

(** msgs is the index of a successful run in which types.ObjectString with an empty qualifier is objstr *)
Definition indexed_by (objstr : obj → string) (P : project) (msgs : list message) : Prop :=
  ∃ digest mo root version impl impl_error po ao po2 skip meta w,
    indexable (pr_objs P) (pr_fs P) (pr_heap P) (pr_all P) (pr_proj P) (pr_pkgs P) ∧ orders_ok mo ∧
    key_order (pr_proj P) po ∧ key_order (pr_all P) ao ∧ key_order (pr_proj P) po2 ∧
    impl_contract (pr_env P) (pr_objs P) root version (pr_heap P) (pr_all P) (pr_proj P) impl ∧
    Index.index digest (pr_env P) (pr_fs P) (pr_heap P) objstr mo w impl impl_error root version skip meta
      (LoadOk (pr_all P) (pr_proj P)) po ao po2 = (msgs, Returned None).
Lemma indexed_by_indexed objstr P msgs : indexed_by objstr P msgs → indexed P msgs.
Proof. intros (digest & mo & r). by exists digest, objstr, mo. Qed.

(** a text that may be empty: no signature document when it is *)
Definition shown (s : string) : option string := if String.eqb s "" then None else Some s.

(** C61: a package-level declaration is described in the document of its file with its own name, the kind of
    its object, its object's signature, and the comments of its declaration. *)
Theorem C61_declared_hover_partial : ∀ P msgs p f ti i k par def,
  indexed P msgs → p ∈ pr_pkgs P → f ∈ p_syntax p → p_info p = Some ti → wf_pkg_pos p →
  file_declares f i k par → (is_value_key k = true → common_before p i ∧ no_group_before p i) →
  distinct_ptrs p → (0 < id_pos i)%Z → ti_defs ti (id_ptr i) = Some def →
  ∃ m d info, p_module p = Some m ∧ document_of (pr_pkgs P) (documents msgs) p f d ∧ info ∈ d_symbols d ∧
    i_symbol info = key_symbol (p_path p) m k ∧
    i_display_name info = id_name i ∧
    i_kind info = kind_for_object (pr_env P) (Some def) ∧
    i_signature info = shown (ti_sig ti def) ∧
    documented_as par i (i_documentation info).
Proof.
  intros P msgs p f ti i k par def
    (digest & objstr & mo & root & version & impl & ie & po & ao & po2 & skip & meta & w & Hix & Hmo & H1 & H2 & H3 & Hic & Hrun)
    Hp Hf Hti Hwf Hd Hv Hptr Hpos Hdef.
  destruct P as [env objs fs h all proj ps]. cbn in *.
  destruct (success digest env objs fs h objstr mo root version all proj ps impl ie po ao po2 skip meta w Hix Hmo H1 H2 H3 Hic msgs Hrun)
    as (ds & exts & g0 & g & kk & -> & Htab & _ & Hst & Hds).
  assert (Hcv : is_value_key k = true → common_before p i) by tauto.
  destruct (tk_proj _ _ _ _ _ _ _ Htab p Hp) as (tbl0 & Hg & Ht).
  assert (∃ m info, p_module p = Some m ∧ tbl0 !! id_pos i = Some info ∧ i_symbol info = key_symbol (p_path p) m k ∧
    i_display_name info = id_name i ∧ i_kind info = kind_for_object env (Some def) ∧ i_signature info = shown (ti_sig ti def) ∧
    documented_as par i (i_documentation info)) as (m & info & Hm & Hl & Hs & Hn & Hk & Hsig & Hdoc).
  { unfold pass1_table in Ht. destruct (p_syntax p) as [|first rest] eqn:Hsy; [by apply elem_of_nil in Hf|].
    rewrite Hti in Ht. destruct Ht as (tbl1 & m & Hvp & Hm & ->).
    assert (pkg_declares_by p i k par) as Hpd. { exists f. rewrite Hsy. done. }
    destruct (declared_entry digest ti fs env p tbl1 i k par Hwf Hpd Hcv Hpos Hvp) as (m' & info & e & Hm' & Hl & Hs & _ & _ & Hie & Hid & _).
    assert (m' = m) as -> by congruence.
    destruct (declared_documentation digest ti fs env p tbl1 i k par Hwf Hptr Hpd Hv Hpos Hvp) as (info' & Hl' & Hdoc).
    assert (info' = info) as -> by congruence.
    assert (Hne : id_pos i ≠ id_pos (file_ident first)).
    { eapply pos_not_clause; [exact Hsy|by rewrite Hsy|done| |done|done].
      destruct (tpj_info _ _ _ _ (ix_typed _ _ _ _ _ _ Hix) p first Hp) as (ti' & name' & _ & Htf & _); [rewrite Hsy; left|].
      destruct (wff_file _ _ _ _ (tf_wf _ _ _ _ _ Htf)) as (a & b & c & d & e' & ->). eauto 10. }
    exists m, info. rewrite pset_other by done. split; [done|]. split; [done|]. split; [done|].
    subst info. unfold event_info. cbn [new_symbol_info i_display_name i_kind i_signature]. rewrite Hid, Hdef. unfold shown.
    unfold event_info in Hdoc. by rewrite Hid in Hdoc. }
  destruct (same_tables_lookup _ _ _ _ _ Hst Hg) as (tbl & Hg' & Hsame). specialize (Hsame (id_pos i)). rewrite Hl in Hsame.
  destruct (tbl !! id_pos i) as [info'|] eqn:El; [|done]. destruct Hsame as (S1 & S2 & S3 & S4 & S5 & S6).
  assert ((p, f) ∈ files_in_order ps) as [n Hi]%elem_of_list_lookup by by apply files_elem.
  destruct (Forall2_lookup_l _ _ _ _ _ Hds Hi) as (d & Hdn & Hd1). cbn in Hd1.
  destruct Hd1 as (ti' & tbl' & st & sym & name & torder & lorder & Hti' & Hname & Hg'' & _ & Hvis & Hto & Hlo & ->).
  assert (tbl' = tbl) as -> by congruence.
  destruct (declares_child _ _ _ _ Hd) as [Hsub _].
  exists m. eexists. exists info'. split; [done|]. split; [exists n; rewrite documents_msgs; done|]. split.
  - cbn [to_document d_symbols]. apply elem_of_app. left. apply elem_of_list_fmap.
    exists (id_pos i, info'). split; [done|]. unfold symbols_for_file. apply elem_of_list_filter. cbn. split.
    + eapply (ix_idents _ _ _ _ _ _ Hix); [exact Hp|exact Hf|exact Hname|done].
    + rewrite Hto. by apply elem_of_map_to_list.
  - rewrite <- S1, <- S2, <- S3, <- S4, <- S5. done.
Qed.
Print Assumptions C61_declared_hover_partial.

(** in particular every declared symbol shows the signature text of its object (C62), given the view of go/types'
    objects that the printer reads *)
Corollary C62_signature_in_index : ∀ quote unquote gofmt (view : obj → hobj) P msgs p f ti i k par def,
  (∀ o, ti_sig ti o = type_string_for_object quote unquote gofmt (view o)) →
  indexed P msgs → p ∈ pr_pkgs P → f ∈ p_syntax p → p_info p = Some ti → wf_pkg_pos p →
  file_declares f i k par → (is_value_key k = true → common_before p i ∧ no_group_before p i) →
  distinct_ptrs p → (0 < id_pos i)%Z → ti_defs ti (id_ptr i) = Some def →
  ∃ m d info, p_module p = Some m ∧ document_of (pr_pkgs P) (documents msgs) p f d ∧ info ∈ d_symbols d ∧
    i_symbol info = key_symbol (p_path p) m k ∧
    i_signature info = Some (type_string_for_object quote unquote gofmt (view def)).
Proof.
  intros quote unquote gofmt view P msgs p f ti i k par def Hs Hx Hp Hf Hti Hwf Hd Hv Hptr Hpos Hdef.
  destruct (C61_declared_hover_partial P msgs p f ti i k par def Hx Hp Hf Hti Hwf Hd Hv Hptr Hpos Hdef)
    as (m & d & info & Hm & Hdo & Hin & Hsy & _ & _ & Hsig & _).
  exists m, d, info. do 4 (split; [done|]). rewrite Hsig. unfold shown.
  pose proof (proj1 (C62_nonempty quote unquote gofmt (view def))) as Hne. rewrite <- Hs in *.
  by destruct (String.eqb_spec (ti_sig ti def) "").
Qed.
Print Assumptions C62_signature_in_index.

(** C61: what is declared inside a function is described in its document under its local symbol, with the name
    and kind of its object and the object's declaration as text. *)
Theorem C61_local_hover_partial : ∀ objstr P msgs p f ti par i def,
  indexed_by objstr P msgs → p ∈ pr_pkgs P → f ∈ p_syntax p → p_info p = Some ti → wf_pkg_pos p →
  (par, NIdent i) ∈ file_nodes f → function_scoped f i → (0 < id_pos i)%Z →
  visible P ti par i → no_switch ti i → ti_defs ti (id_ptr i) = Some def → (∀ pp, o_kind def ≠ OPkgName pp) →
  ∃ s d o info, is_local s ∧ document_of (pr_pkgs P) (documents msgs) p f d ∧
    (o ∈ d_occs d ∧ is_def o ∧ oc_symbol o = s ∧ oc_range o = ident_span (pr_fs P) i) ∧
    info ∈ d_symbols d ∧ i_symbol info = s ∧
    i_display_name info = o_name def ∧ i_kind info = kind_for_object (pr_env P) (Some def) ∧
    i_signature info = shown (objstr def) ∧ i_documentation info = [] ∧ i_relationships info = [].
Proof.
  intros objstr P msgs p f ti par i def
    (digest & mo & root & version & impl & ie & po & ao & po2 & skip & meta & w & Hix & Hmo & H1 & H2 & H3 & Hic & Hrun)
    Hp Hf Hti Hwf Hin Hsc Hpos V S Hd Hpk.
  destruct P as [env objs fs h all proj ps]. cbn in *.
  destruct (success digest env objs fs h objstr mo root version all proj ps impl ie po ao po2 skip meta w Hix Hmo H1 H2 H3 Hic msgs Hrun) as (ds & exts & g0 & g & kk & -> & Htab & _ & Hst & Hds).
  assert ((p, f) ∈ files_in_order ps) as [n Hi]%elem_of_list_lookup by by apply files_elem.
  destruct (Forall2_lookup_l _ _ _ _ _ Hds Hi) as (dd & Hdn & Hdoc). cbn in Hdoc.
  destruct Hdoc as (ti' & tbl & st & sym & name & torder & lorder & Hti' & Hname & Hg' & _ & Hv & Hto & Hlo & ->).
  assert (ti' = ti) as -> by congruence.
  destruct (tpj_info _ _ _ _ (ix_typed _ _ _ _ _ _ Hix) p f Hp Hf) as (ti' & name' & Hti2 & Htf & Hdi & _).
  assert (ti' = ti) as -> by congruence.
  assert (Hat : o_pos def = id_pos i) by (eapply (proj1 Hdi); [|exact Hd]; change (NIdent i) with (snd (par, NIdent i)); by eapply file_nodes_sub).
  assert (Hld : local_def g p ti tbl (par, NIdent i) = Some (o_pos def, def)).
  { pose proof (visible_plain (Project env objs fs h all proj ps) digest g0 g ti par i (ix_loaded _ _ _ _ _ _ Hix) Htab Hst V) as P1.
    apply no_switch_none in S.
    destruct (tk_proj _ _ _ _ _ _ _ Htab p Hp) as (tbl0 & Hg & Ht).
    assert (Hn : tbl0 !! id_pos i = None).
    { eapply scoped_table; [exact Ht|exact Hti|exact Hf|done| |done|done].
      intros f' Hf'. destruct (tpj_info _ _ _ _ (ix_typed _ _ _ _ _ _ Hix) p f' Hp Hf') as (ti' & name'' & _ & Htf' & _).
      destruct (wff_file _ _ _ _ (tf_wf _ _ _ _ _ Htf')) as (a & b & c & e & e' & ->). eauto 10. }
    destruct (same_tables_lookup _ _ _ _ _ Hst Hg) as (tbl1 & Hg1 & Hsame).
    assert (tbl1 = tbl) as -> by congruence. specialize (Hsame (id_pos i)). rewrite Hn in Hsame.
    unfold local_def. rewrite P1, S, Hd. unfold registered. rewrite Hat. destruct (tbl !! id_pos i) eqn:E; [done|]. by rewrite Hg', E. }
  pose proof (lk_answers env _ root version g _ _ _ _ Htf) as Ha.
  destruct (visited_occs _ _ _ _ _ _ _ _ _ _ _ _ _ Htf Ha st Hv) as (Hnd & Ho & Hinv).
  pose proof Hin as (l1 & l2 & Hsplit)%elem_of_list_split.
  set (k := length (omap (local_def g p ti tbl) l1)).
  assert (Hk : local_defs g p ti tbl f !! k = Some (o_pos def, def)).
  { unfold local_defs, k. rewrite Hsplit, omap_app. rewrite lookup_app_r by lia. rewrite Nat.sub_diag. unfold omap at 1. cbn [list_omap]. by rewrite Hld. }
  destruct (ldef_occ g fs p ti tbl (imports_of h p) (lk env root version g) ([] ++ omap (local_def g p ti tbl) l1) _ _ _ Hld)
    as (i1 & encl & Hi1 & Hocc). cbn in Hi1. injection Hi1 as <-.
  assert (Hloc : f_locals st !! o_pos def = Some (Local (local_name k) def)).
  { rewrite (iv_locals _ _ _ _ _ _ _ Hinv). rewrite (index_of_lookup _ _ _ _ Hnd Hk), Hk. done. }
  exists (local_name k). eexists _, (Definition_ (local_name k) (ident_span fs i) encl false), (local_info env ti objstr (Local (local_name k) def)).
  split; [apply local_name_local|]. split; [exists n; rewrite documents_msgs; split; [exact Hi|exact Hdn]|].
  cbn [to_document d_occs d_symbols]. split; [|split].
  - rewrite Ho. split; [|done]. right. apply nsoccs_elem. exists l1, (par, NIdent i), l2. split; [done|exact Hocc].
  - apply elem_of_app. right. apply elem_of_list_fmap. exists (o_pos def, Local (local_name k) def). split; [done|].
    rewrite Hlo. by apply elem_of_map_to_list.
  - assert (Hst' : signature_text objstr (Local (local_name k) def) = objstr def).
    { unfold signature_text. cbn [l_obj]. destruct (o_kind def) eqn:Ek; try reflexivity. by destruct (Hpk imported_path). }
    unfold local_info. rewrite Hst'. cbn -[kind_for_object case_at].
    rewrite Hat. change (case_at ti (id_pos i)) with (switch_object ti i). by rewrite (no_switch_none _ _ S).
Qed.
Print Assumptions C61_local_hover_partial.

(** func F[S ~[]E, E any](s S) int { x := 1; ... } of ExOcc.v: the function F and the variable x *)
Lemma a_indexed_by : indexed_by (λ o, o_name o) A a_msgs.
Proof.
  eexists p_digest, x_mo, "/src", "v1.0.0", x_impl, "", ["ex.org/p"], ["fmt"; "ex.org/p"], ["ex.org/p"], false, x_meta, (λ _ _, None).
  split; [apply a_indexable|]. split; [apply x_mo_ok|].
  split; [unfold key_order; vm_compute; repeat constructor|]. split; [unfold key_order; vm_compute; repeat constructor|].
  split; [unfold key_order; vm_compute; repeat constructor|]. split; [|exact a_success].
  intros g g' k' exts _. unfold x_impl. intros [= <- <- <-]. split; [apply same_tables_refl|apply fresh_ok].
Qed.
Example C61_declared_example : ∃ m d info, p_module a_p = Some m ∧ document_of (pr_pkgs A) (documents a_msgs) a_p q_file d ∧ info ∈ d_symbols d ∧
    i_symbol info = key_symbol (p_path a_p) m (KeyFunc "F") ∧ i_display_name info = "F" ∧
    i_kind info = kind_for_object (pr_env A) (Some o_F) ∧ i_signature info = shown (ti_sig q_ti o_F) ∧ documented_as q_F (mk 103 "F" 35) (i_documentation info).
Proof.
  destruct a_declaration as [D1 D2 D3 D4 D5 D6].
  eapply (C61_declared_hover_partial A a_msgs a_p q_file q_ti (mk 103 "F" 35) (KeyFunc "F") q_F o_F).
  - apply a_indexed.
  - left.
  - left.
  - done.
  - done.
  - exists 1%Z, false, "", (mk 100 "p" 9), [q_import; q_F], q_F. split; [done|]. split; [right; left|]. apply (dd_func _ _ _ (mk 103 "F" 35)).
  - done.
  - intros f i j Hf Hi Hj. apply elem_of_list_singleton in Hf as ->. rewrite <- elem_of_node_idents in Hi, Hj. intros E.
    enum Hi; subst i; enum Hj; subst j; try reflexivity; discriminate.
  - done.
  - done.
Qed.
Example C61_local_example : ∃ s d o info, is_local s ∧ document_of (pr_pkgs A) (documents a_msgs) a_p q_file d ∧
    (o ∈ d_occs d ∧ is_def o ∧ oc_symbol o = s ∧ oc_range o = ident_span (pr_fs A) (mk 111 "x" 62)) ∧
    info ∈ d_symbols d ∧ i_symbol info = s ∧ i_display_name info = o_name o_x ∧ i_kind info = kind_for_object (pr_env A) (Some o_x) ∧
    i_signature info = shown (o_name o_x) ∧ i_documentation info = [] ∧ i_relationships info = [].
Proof.
  eapply (C61_local_hover_partial (λ o, o_name o) A a_msgs a_p q_file q_ti (Some (NOther 62 [NIdent (mk 111 "x" 62); NOther 67 []])) (mk 111 "x" 62) o_x).
  - apply a_indexed_by.
  - left.
  - left.
  - done.
  - apply wf_pkgb_ok. vm_compute. reflexivity.
  - apply (elem_of_list_lookup_2 _ 24). vm_compute. reflexivity.
  - eexists _, _, _, _, _. split; [reflexivity|]. left. eexists _, _, _, _, _, _, _, _, _, _, _. split; [right; left|].
    split; [right; right; left|]. apply elem_of_list_In; vm_compute; tauto.
  - done.
  - split; [done|]. split; [|done]. intros o pp Hu. vm_compute in Hu. done.
  - intros c Hc. by apply elem_of_nil in Hc.
  - done.
  - done.
Qed.
