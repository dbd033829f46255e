(** Properties C05, C06, C07, C16, C17, C18 (text part), C19, C22: the symbols
    recorded for declarations.  Proofs are in P_Pass1, P_Doc, P_Link. *)
From Coq Require Import Ascii String.
From stdpp Require Import prelude strings gmap.
From Verif Require Import GoStr Scip GoTypes Ast Packages Symbols Document Lookup Pass1
  SpecSymbol SpecDecl P_Symbols P_Pass1 P_Doc P_Link ExDecl.
Open Scope string_scope.
Open Scope list_scope.

(** C05: the entry recorded for a package-level declaration while indexing its
    package carries the symbol that an indexer seeing the package only as a
    dependency [dep] (same module path and version) composes for its object. *)
Theorem C05_declared_equals_composed :
  ∀ digest ti fs env env' pkg tbl i k m dp dv dep m' o,
  wf_pkg_pos pkg → pkg_declares pkg i k →
  (is_value_key k = true → common_before pkg i) →
  (0 < id_pos i)%Z → visit_package_table digest ti fs env pkg = Ok tbl →
  p_module pkg = Some m → p_module dep = Some m' →
  m_path m = m_path m' → m_version m = m_version m' →
  object_of_key env' (p_path pkg) k o →
  ∃ info, tbl !! id_pos i = Some info ∧
    (compose env' (new_composer dp dv) (Some dep) (Some o)).1 = i_symbol info.
Proof.
  intros digest ti fs env env' pkg tbl i k m dp dv dep m' o Hwf (par & Hd) Hcv Hp Ht Hm Hm' H1 H2 Ho.
  destruct (declared_entry digest ti fs env pkg tbl i k par Hwf Hd Hcv Hp Ht)
    as (m0 & info & e & Hm0 & Hl & Hs & _).
  exists info. split; [done|]. rewrite (compose_key env' dp dv dep m' (p_path pkg) k), Hs by done.
  assert (m0 = m) as -> by congruence. symmetry. by apply key_symbol_ext.
Qed.
Print Assumptions C05_declared_equals_composed.

(** the symbol has the documented layout *)
Theorem C05_declared_layout :
  ∀ digest ti fs env pkg tbl i k,
  wf_pkg_pos pkg → pkg_declares pkg i k →
  (is_value_key k = true → common_before pkg i) →
  (0 < id_pos i)%Z → visit_package_table digest ti fs env pkg = Ok tbl →
  ∃ m info, p_module pkg = Some m ∧ tbl !! id_pos i = Some info ∧
    i_symbol info = key_symbol (p_path pkg) m k ∧ i_display_name info = id_name i ∧
    i_kind info = kind_for_object env (ti_defs ti (id_ptr i)).
Proof.
  intros digest ti fs env pkg tbl i k Hwf (par & Hd) Hcv Hp Ht.
  destruct (declared_entry digest ti fs env pkg tbl i k par Hwf Hd Hcv Hp Ht)
    as (m0 & info & e & Hm0 & Hl & Hs & _ & _ & -> & Hid & _).
  exists m0, (event_info ti env m0 e). subst i. done.
Qed.
Print Assumptions C05_declared_layout.

Lemma ex_object_F : object_of_key p_env "ex.org/p" (KeyMember "T" "F") p_objF.
Proof.
  split; [done|]. exists p_tpkg. split; [done|]. split; [done|]. split; [done|]. split; [done|].
  assert (Hd : direct_field_of p_env (SEntry "T" true (TNamed nT [])) 103).
  { split; [done|]. exists nT, [], [(FHdr 103 "F" (Some "ex.org/p") false "", TBasic BInt false)].
    split; [done|]. split; [reflexivity|]. eexists. split; [by apply elem_of_list_here|done]. }
  split.
  - eexists. split; [|exact Hd]. right. left.
  - intros e He (H1 & tn & args & fs & H2 & H3 & _). cbn in He.
    repeat (apply elem_of_cons in He as [->|He]; [try done|]); [|by apply elem_of_nil in He].
    cbn in H2. injection H2 as <- <-. discriminate.
Qed.
Lemma ex_object_M : object_of_key p_env "ex.org/p" (KeyMethod "T" "M") p_objM.
Proof.
  split; [done|]. exists p_tpkg. split; [done|]. split; [done|].
  exists (TPointer (TNamed nT [])), nT. repeat split; try done. repeat constructor.
Qed.
Example C05_ex :
  wf_pkg_pos p_pkg ∧ (∀ i, common_before p_pkg i) ∧
  pkg_declares p_pkg (mk 3 "F" 28) (KeyMember "T" "F") ∧ object_of_key p_env "ex.org/p" (KeyMember "T" "F") p_objF ∧
  pkg_declares p_pkg (mk 8 "M" 53) (KeyMethod "T" "M") ∧ object_of_key p_env "ex.org/p" (KeyMethod "T" "M") p_objM ∧
  pkg_declares p_pkg (mk 9 "a" 70) (KeyValue "a") ∧
  pkg_declares p_pkg (mk 5 "E" 37) (KeyMember "T" "E") ∧
  (∃ tbl, visit_package_table p_digest p_ti p_fs p_env p_pkg = Ok tbl) ∧
  key_symbol "ex.org/p" p_mod (KeyMethod "T" "M") = "scip-go gomod ex.org v1.0.0 `ex.org/p`/T#M().".
Proof.
  split; [apply p_wf|]. split; [intros; apply common_before_all, p_common|].
  split; [eexists; apply p_declares_F|]. split; [apply ex_object_F|].
  split; [eexists; apply p_declares_M|]. split; [apply ex_object_M|].
  split; [eexists; apply p_declares_a|]. split; [eexists; apply p_declares_E|].
  split; [apply p_table_ok|]. vm_compute. reflexivity.
Qed.

(** C06 fails, always, for interface methods: the declaration is recorded as a
    term, the object is composed as a method. *)
Theorem C06_interface_method_refuted :
  ∀ digest ti fs env env' pkg tbl i T n m dp dv dep m' o tp rt tn,
  wf_pkg_pos pkg → pkg_declares pkg i (KeyMember T n) →
  (0 < id_pos i)%Z → visit_package_table digest ti fs env pkg = Ok tbl →
  p_module pkg = Some m → p_module dep = Some m' → clean_module m →
  m_path m = m_path m' → m_version m = m_version m' →
  o_origin o = None → o_pkg o = Some tp → tp_path tp = p_path pkg → o_name o = n →
  o_kind o = OFunc (Some (Some rt)) → base_named rt tn → tn_name tn = T → T ≠ "" →
  ∃ info, tbl !! id_pos i = Some info ∧
    (compose env' (new_composer dp dv) (Some dep) (Some o)).1 ≠ i_symbol info.
Proof.
  intros digest ti fs env env' pkg tbl i T n m dp dv dep m' o tp rt tn Hwf (par & Hd) Hp Ht Hm Hm' Hc H1 H2
    Ho Htp Hpath Hn Hk Hb Htn HT.
  destruct (declared_entry digest ti fs env pkg tbl i _ par Hwf Hd) as (m0 & info & e & Hm0 & Hl & Hs & _);
    [done|done|done|].
  exists info. split; [done|]. rewrite (compose_method env' dp dv dep m' o tp rt tn) by congruence.
  rewrite Hs. unfold key_symbol. rewrite <- H1, <- H2. assert (m0 = m) as -> by congruence.
  intros He. apply format_symbol_inj_descs in He; [done|]. by apply clean_module_symbol.
Qed.
Print Assumptions C06_interface_method_refuted.
Example C06_interface_method_ex :
  pkg_declares p_pkg (mk 14 "N" 109) (KeyMember "I" "N") ∧ clean_module p_mod ∧
  o_kind p_objN = OFunc (Some (Some (TNamed nI []))) ∧ base_named (TNamed nI []) nI ∧
  (compose p_env (new_composer "" "") (Some p_pkg) (Some p_objN)).1
    = "scip-go gomod ex.org v1.0.0 `ex.org/p`/I#N()." ∧
  key_symbol "ex.org/p" p_mod (KeyMember "I" "N") = "scip-go gomod ex.org v1.0.0 `ex.org/p`/I#N.".
Proof.
  split; [eexists; apply p_declares_N|]. split; [done|]. split; [done|]. split; [constructor|].
  split; vm_compute; reflexivity.
Qed.

(** C06 fails for a method declared on an alias [r] of the receiver type [tn]. *)
Theorem C06_alias_receiver_refuted :
  ∀ digest ti fs env env' pkg tbl i r n m dp dv dep m' o tp rt tn,
  wf_pkg_pos pkg → pkg_declares pkg i (KeyMethod r n) →
  (0 < id_pos i)%Z → visit_package_table digest ti fs env pkg = Ok tbl →
  p_module pkg = Some m → p_module dep = Some m' → clean_module m →
  m_path m = m_path m' → m_version m = m_version m' →
  o_origin o = None → o_pkg o = Some tp → tp_path tp = p_path pkg → o_name o = n →
  o_kind o = OFunc (Some (Some rt)) → base_named rt tn → tn_name tn ≠ "" →
  tn_name tn ≠ r →
  ∃ info, tbl !! id_pos i = Some info ∧
    (compose env' (new_composer dp dv) (Some dep) (Some o)).1 ≠ i_symbol info.
Proof.
  intros digest ti fs env env' pkg tbl i T n m dp dv dep m' o tp rt tn Hwf (par & Hd) Hp Ht Hm Hm' Hc H1 H2
    Ho Htp Hpath Hn Hk Hb Htn HT.
  destruct (declared_entry digest ti fs env pkg tbl i _ par Hwf Hd) as (m0 & info & e & Hm0 & Hl & Hs & _);
    [done|done|done|].
  exists info. split; [done|]. rewrite (compose_method env' dp dv dep m' o tp rt tn) by congruence.
  rewrite Hs. unfold key_symbol. rewrite <- H1, <- H2. assert (m0 = m) as -> by congruence.
  intros He. apply format_symbol_inj_descs in He; [|by apply clean_module_symbol].
  by injection He as _ ? _.
Qed.
Print Assumptions C06_alias_receiver_refuted.
(** type A = T; func (a A) M() *)
Example C06_alias_receiver_ex :
  let o := Obj 1 "M" (Some p_tpkg) 53 (OFunc (Some (Some (TAlias (TName 77 (Some "ex.org/p") "A") (TNamed nT []))))) (TSig [] [] false) None in
  let decl := NFuncDecl "" 41 60 (Some (NFieldList [NField "" "" [mk 6 "t" 47] (NIdent (mk 7 "A" 50))]))
   (mk 8 "M" 53) (NFuncType 41 empty_fields empty_fields empty_fields) None in
  decl_declares decl (mk 8 "M" 53) (KeyMethod "A" "M") decl ∧
  (compose p_env (new_composer "" "") (Some p_pkg) (Some o)).1
    = "scip-go gomod ex.org v1.0.0 `ex.org/p`/T#M()." ∧
  key_symbol "ex.org/p" p_mod (KeyMethod "A" "M") = "scip-go gomod ex.org v1.0.0 `ex.org/p`/A#M().".
Proof.
  split; [|split; vm_compute; reflexivity].
  apply (dd_method _ _ _ _ _ _ _ _ (mk 8 "M" 53) _ _ (mk 7 "A" 50)). constructor.
Qed.

(** C06 fails for a field of T when another named type, alphabetically before T,
    has the same underlying struct (type A T). *)
Theorem C06_shared_struct_refuted :
  ∀ digest ti fs env env' pkg tbl i T n m dp dv dep m' o tp scope1 e scope2,
  wf_pkg_pos pkg → pkg_declares pkg i (KeyMember T n) →
  (0 < id_pos i)%Z → visit_package_table digest ti fs env pkg = Ok tbl →
  p_module pkg = Some m → p_module dep = Some m' → clean_module m →
  m_path m = m_path m' → m_version m = m_version m' →
  o_origin o = None → o_pkg o = Some tp → tp_path tp = p_path pkg → o_name o = n →
  o_kind o = OVar true → tp_scope tp = scope1 ++ e :: scope2 →
  (∀ e', e' ∈ scope1 → ¬ direct_field_of env' e' (o_id o)) →
  direct_field_of env' e (o_id o) → se_name e ≠ T →
  ∃ info, tbl !! id_pos i = Some info ∧
    (compose env' (new_composer dp dv) (Some dep) (Some o)).1 ≠ i_symbol info.
Proof.
  intros digest ti fs env env' pkg tbl i T n m dp dv dep m' o tp sc1 e sc2 Hwf (par & Hd) Hp Ht Hm Hm' Hc H1 H2
    Ho Htp Hpath Hn Hk Hsc Hbefore Hdf HT.
  destruct (declared_entry digest ti fs env pkg tbl i _ par Hwf Hd) as (m0 & info & ev & Hm0 & Hl & Hs & _);
    [done|done|done|].
  assert (Hloc : locate_owner env' (tp_scope tp) (o_id o) = Some (se_name e)).
  { unfold locate_owner. rewrite Hsc. clear -Hbefore Hdf.
    induction sc1 as [|x sc1 IH]; cbn.
    - apply owns_field_spec in Hdf. by rewrite Hdf.
    - destruct (owns_field env' (o_id o) x) eqn:E.
      + exfalso. apply (Hbefore x); [left|]. by apply owns_field_spec.
      + apply IH. intros e' He'. apply Hbefore. by right. }
  exists info. split; [done|]. rewrite (compose_field env' dp dv dep m' o tp (se_name e)) by congruence.
  rewrite Hs. unfold key_symbol. rewrite <- H1, <- H2. assert (m0 = m) as -> by congruence.
  intros He. apply format_symbol_inj_descs in He; [|by apply clean_module_symbol].
  by injection He as _ ? _.
Qed.
Print Assumptions C06_shared_struct_refuted.
(** type A T (declared beside T): the field F of T is composed as A#F. *)
Example C06_shared_struct_ex :
  let tp := TPkg "ex.org/p" (SEntry "A" true (TNamed (TName 11 (Some "ex.org/p") "A") []) :: tp_scope p_tpkg) in
  let env := λ tn args, if Nat.eqb (tn_id tn) 11 then p_env nT [] else p_env tn args in
  let o := Obj 103 "F" (Some tp) 28 (OVar true) (TBasic BInt false) None in
  direct_field_of env (SEntry "A" true (TNamed (TName 11 (Some "ex.org/p") "A") [])) (o_id o) ∧
  (compose env (new_composer "" "") (Some p_pkg) (Some o)).1 = "scip-go gomod ex.org v1.0.0 `ex.org/p`/A#F." ∧
  key_symbol "ex.org/p" p_mod (KeyMember "T" "F") = "scip-go gomod ex.org v1.0.0 `ex.org/p`/T#F.".
Proof.
  split; [|split; vm_compute; reflexivity].
  split; [done|]. eexists _, [], _. split; [done|]. split; [reflexivity|].
  eexists. split; [apply elem_of_list_here|done].
Qed.

(** C07: declarations with different Go identities get different symbols. *)
Theorem C07_distinct_symbols :
  ∀ digest ti fs env pkg tbl m i1 k1 i2 k2,
  wf_pkg_pos pkg → pkg_declares pkg i1 k1 → pkg_declares pkg i2 k2 →
  (is_value_key k1 = true → common_before pkg i1) → (is_value_key k2 = true → common_before pkg i2) →
  (0 < id_pos i1)%Z → (0 < id_pos i2)%Z → visit_package_table digest ti fs env pkg = Ok tbl →
  p_module pkg = Some m → clean_module m → k1 ≠ k2 →
  ∃ s1 s2, pget_symbol tbl (id_pos i1) = Some s1 ∧ pget_symbol tbl (id_pos i2) = Some s2 ∧ s1 ≠ s2.
Proof.
  intros digest ti fs env pkg tbl m i1 k1 i2 k2 Hwf (par1 & Hd1) (par2 & Hd2) Hcv1 Hcv2 Hp1 Hp2 Ht Hm Hc Hne.
  destruct (declared_entry digest ti fs env pkg tbl i1 k1 par1 Hwf Hd1) as (m1 & info1 & e1 & Hm1 & Hl1 & Hs1 & _);
    [tauto|done|done|].
  destruct (declared_entry digest ti fs env pkg tbl i2 k2 par2 Hwf Hd2) as (m2 & info2 & e2 & Hm2 & Hl2 & Hs2 & _);
    [tauto|done|done|].
  exists (i_symbol info1), (i_symbol info2). unfold pget_symbol, pget. rewrite Hl1, Hl2.
  split; [done|]. split; [done|]. rewrite Hs1, Hs2.
  assert (m1 = m) as -> by congruence. assert (m2 = m) as -> by congruence.
  intros H. by apply key_symbol_inj in H.
Qed.
Print Assumptions C07_distinct_symbols.
Example C07_ex : pkg_declares p_pkg (mk 3 "F" 28) (KeyMember "T" "F") ∧
  pkg_declares p_pkg (mk 8 "M" 53) (KeyMethod "T" "M") ∧ KeyMember "T" "F" ≠ KeyMethod "T" "M".
Proof. split; [eexists; apply p_declares_F|]. split; [eexists; apply p_declares_M|done]. Qed.

(** C07, limit: declarations that Go distinguishes although they have the same
    name (several init functions, several blank identifiers) share one symbol. *)
Theorem C07_same_name_shared :
  ∀ digest ti fs env pkg tbl i1 i2 k,
  wf_pkg_pos pkg → pkg_declares pkg i1 k → pkg_declares pkg i2 k →
  (is_value_key k = true → common_before pkg i1 ∧ common_before pkg i2) →
  (0 < id_pos i1)%Z → (0 < id_pos i2)%Z → visit_package_table digest ti fs env pkg = Ok tbl →
  ∃ s, pget_symbol tbl (id_pos i1) = Some s ∧ pget_symbol tbl (id_pos i2) = Some s.
Proof.
  intros digest ti fs env pkg tbl i1 i2 k Hwf (par1 & Hd1) (par2 & Hd2) Hcv Hp1 Hp2 Ht.
  destruct (declared_entry digest ti fs env pkg tbl i1 k par1 Hwf Hd1) as (m1 & info1 & e1 & Hm1 & Hl1 & Hs1 & _);
    [tauto|done|done|].
  destruct (declared_entry digest ti fs env pkg tbl i2 k par2 Hwf Hd2) as (m2 & info2 & e2 & Hm2 & Hl2 & Hs2 & _);
    [tauto|done|done|].
  exists (i_symbol info1). unfold pget_symbol, pget. rewrite Hl1, Hl2. cbn. split; [done|].
  rewrite Hs1, Hs2. congruence.
Qed.
Print Assumptions C07_same_name_shared.
(** func init() {}; func init() {} *)
Example C07_same_name_ex :
  let init1 := NFuncDecl "" 12 30 None (mk 1 "init" 17) (NFuncType 12 empty_fields empty_fields empty_fields) None in
  let init2 := NFuncDecl "" 32 50 None (mk 2 "init" 37) (NFuncType 32 empty_fields empty_fields empty_fields) None in
  let pkg := GPkg 1 "ex.org/p" "p" (Some p_mod) [] [NFile 1 false "" (mk 0 "p" 9) [init1; init2]] None None in
  wf_pkg_pos pkg ∧ pkg_declares pkg (mk 1 "init" 17) (KeyFunc "init") ∧ pkg_declares pkg (mk 2 "init" 37) (KeyFunc "init").
Proof.
  split; [apply wf_pkgb_ok; vm_compute; reflexivity|].
  split; eexists; eexists; (split; [left|]); eexists _, _, _, _, _, _; (split; [done|]).
  - split; [left|]. apply (dd_func _ _ _ (mk 1 "init" 17)).
  - split; [right; left|]. apply (dd_func _ _ _ (mk 2 "init" 37)).
Qed.

(** C16: each recorded entry goes to exactly one document, that of the file
    containing its position, whatever order the table is iterated in (a fresh
    order for every document). *)
Theorem C16_partition :
  ∀ digest ti fs env pkg tbl (fname : node → string) (orders : string → list (Z * syminfo)),
  visit_package_table digest ti fs env pkg = Ok tbl →
  NoDup (map fname (p_syntax pkg)) →
  (∀ f p, f ∈ p_syntax pkg → p ∈ poss f → tbl !! p ≠ None → fs_file fs p = Some (fname f)) →
  (∀ f, orders f ≡ₚ map_to_list tbl) →
  List.concat (map (λ f, symbols_for_file fs (fname f) (orders (fname f))) (p_syntax pkg))
    ≡ₚ map_to_list tbl ∧
  (∀ f p info, (p, info) ∈ symbols_for_file fs f (orders f) ↔
               tbl !! p = Some info ∧ fs_file fs p = Some f).
Proof.
  intros digest ti fs env pkg tbl fname orders Ht Hnd Hpos Hord. split.
  - rewrite <- (partition fs (map fname (p_syntax pkg)) (map_to_list tbl)); [|done|].
    + rewrite List.map_map. generalize (p_syntax pkg) as l. clear -Hord.
      induction l as [|f l IH]; [done|]. cbn. rewrite IH. by rewrite (sff_perm fs _ _ _ (Hord _)).
    + intros [p info] He. apply elem_of_map_to_list in He. cbn.
      assert (Hs : tbl !! p ≠ None) by congruence.
      destruct (table_positions _ _ _ _ _ _ _ Ht Hs) as (f & Hf & Hp).
      exists (fname f). split; [by apply elem_of_list_fmap_1|]. by apply Hpos.
  - intros f p info. unfold symbols_for_file. rewrite elem_of_list_filter.
    rewrite (Hord f), elem_of_map_to_list. cbn. tauto.
Qed.
Print Assumptions C16_partition.
Example C16_ex : ∃ tbl, visit_package_table p_digest p_ti p_fs p_env p_pkg = Ok tbl ∧
  (∀ f p, f ∈ p_syntax p_pkg → p ∈ poss f → tbl !! p ≠ None → fs_file p_fs p = Some "p.go") ∧
  size tbl = 9.
Proof.
  eexists. split; [unfold visit_package_table; rewrite (res_fold_put p_ti p_env p_pkg p_mod) by done; reflexivity|].
  split; [|vm_compute; reflexivity].
  intros f p Hf Hp _. apply elem_of_list_singleton in Hf as ->.
  assert (H : forallb (λ p, Z.leb p 200) (poss p_file) = true) by (vm_compute; reflexivity).
  rewrite forallb_forall in H. specialize (H p (proj1 (elem_of_list_In _ _) Hp)). cbn. by rewrite H.
Qed.

(** C17: a package-level variable or constant is always recorded as its package
    namespace followed by its name, whatever precedes it, provided the declared
    types of the specs before it in its group have one of the common forms ... *)
Theorem C17_value_symbol_partial :
  ∀ digest ti fs env pkg tbl i n,
  wf_pkg_pos pkg → pkg_declares pkg i (KeyValue n) → common_before pkg i →
  (0 < id_pos i)%Z → visit_package_table digest ti fs env pkg = Ok tbl →
  ∃ m, p_module pkg = Some m ∧ pget_symbol tbl (id_pos i) =
    Some (format_symbol (Sym "scip-go" (SPkg "gomod" (m_path m) (m_version m))
                             [Desc (p_path pkg) Namespace; Desc n Term])).
Proof.
  intros digest ti fs env pkg tbl i n Hwf (par & Hd) Hcv Hp Ht.
  destruct (declared_entry digest ti fs env pkg tbl i _ par Hwf Hd) as (m & info & e & Hm & Hl & Hs & _);
    [done|done|done|].
  exists m. split; [done|]. unfold pget_symbol, pget. rewrite Hl. cbn. by rewrite Hs.
Qed.
Print Assumptions C17_value_symbol_partial.
Example C17_ex : wf_pkg_pos p_pkg ∧ pkg_declares p_pkg (mk 9 "a" 70) (KeyValue "a") ∧ common_before p_pkg (mk 9 "a" 70).
Proof. split; [apply p_wf|]. split; [eexists; apply p_declares_a|apply common_before_all, p_common]. Qed.

(** ... and it fails after a spec with a parenthesised type:
    var ( a (int); b int ) records b as p/a:b. *)
Theorem C17_parenthesised_type_refuted :
  ∃ digest ti fs env pkg tbl i,
  wf_pkg_pos pkg ∧ pkg_declares pkg i (KeyValue "b") ∧ (0 < id_pos i)%Z ∧
  visit_package_table digest ti fs env pkg = Ok tbl ∧
  pget_symbol tbl (id_pos i) = Some "scip-go gomod ex.org v1.0.0 `ex.org/p`/a:b.".
Proof.
  pose (decl := NGenDecl 12 VAR "" [NValueSpec "" "" [mk 1 "a" 18] (Some (NParenExpr 20 (NIdent (mk 2 "int" 21)))) [];
                NValueSpec "" "" [mk 3 "b" 27] (Some (NIdent (mk 4 "int" 29))) []]).
  exists p_digest, p_ti, p_fs, p_env, (GPkg 1 "ex.org/p" "p" (Some p_mod) [] [NFile 1 false "" (mk 0 "p" 9) [decl]] None None).
  eexists. exists (mk 3 "b" 27).
  split; [apply wf_pkgb_ok; vm_compute; reflexivity|]. split.
  { eexists; eexists; (split; [left|]); eexists _, _, _, _, _, _; (split; [done|]). split; [left|].
    eapply (dd_value _ _ _ _ _ _ _ _ _ (mk 3 "b" 27)); [by left|right; left|left]. }
  split; [done|]. split.
  { unfold visit_package_table. rewrite (res_fold_put p_ti p_env _ p_mod) by done. reflexivity. }
  vm_compute. reflexivity.
Qed.
Print Assumptions C17_parenthesised_type_refuted.

(** C18, text part: a documentation list counts as deprecated exactly when some
    line of some entry starts with "Deprecated:". *)
Theorem C18_deprecated_text : ∀ docs,
  is_doc_deprecated docs = true ↔ ∃ d, d ∈ docs ∧ line_deprecated d.
Proof. exact is_doc_deprecated_spec. Qed.
Print Assumptions C18_deprecated_text.
Example C18_text_ex :
  is_doc_deprecated ["Old." +:+ nl +:+ "Deprecated: use New."] = true ∧
  is_doc_deprecated ["Not Deprecated: x"] = false.
Proof. vm_compute. split; reflexivity. Qed.

(** C19: documentation of a declared symbol: its own comment first, then the
    group's if different; at most two entries, no empty one, no repetition.
    Value declarations must not follow, in their group, a spec containing a
    function literal with declarations. *)
Theorem C19_documentation_partial :
  ∀ digest ti fs env pkg tbl i k par,
  wf_pkg_pos pkg → distinct_ptrs pkg → pkg_declares_by pkg i k par →
  (is_value_key k = true → common_before pkg i ∧ no_group_before pkg i) →
  (0 < id_pos i)%Z → visit_package_table digest ti fs env pkg = Ok tbl →
  ∃ info, tbl !! id_pos i = Some info ∧ documented_as par i (i_documentation info).
Proof. exact declared_documentation. Qed.
Print Assumptions C19_documentation_partial.

Theorem C19_entries : ∀ par i docs, documented_as par i docs →
  length docs ≤ 2 ∧ NoDup docs ∧ "" ∉ docs.
Proof.
  intros par i docs H.
  assert (∃ own block, docs = doc_entries own block) as (own & block & ->).
  { destruct par; cbn in H; try done; try (by eexists _, _). destruct H as (s & _ & _ & ->). eauto. }
  split; [apply doc_entries_le|apply doc_entries_ok].
Qed.
Print Assumptions C19_entries.
Example C19_ex : distinct_ptrs p_pkg ∧ no_group_before p_pkg (mk 9 "a" 70) ∧
  pkg_declares_by p_pkg (mk 9 "a" 70) (KeyValue "a") d_vars ∧
  documented_as d_vars (mk 9 "a" 70) ["A docs"; "Block."].
Proof.
  split; [apply p_ptrs|]. split; [apply p_groups|]. split; [apply p_declares_a|].
  eexists. split; [left|]. split; [left|]. vm_compute. reflexivity.
Qed.

(** ... otherwise the comments of the wrong group are used:
    var ( f = func() { var x int }; // B docs
          b = 1 )  loses "B docs". *)
Theorem C19_nested_group_refuted :
  ∃ digest ti fs env pkg tbl i par info,
  wf_pkg_pos pkg ∧ distinct_ptrs pkg ∧ pkg_common_value_types pkg ∧
  pkg_declares_by pkg i (KeyValue "b") par ∧ (0 < id_pos i)%Z ∧
  visit_package_table digest ti fs env pkg = Ok tbl ∧ tbl !! id_pos i = Some info ∧
  documented_as par i ["B docs"] ∧ i_documentation info = [].
Proof.
  pose (inner := NGenDecl 40 VAR "" [NValueSpec "" "" [mk 2 "x" 44] (Some (NIdent (mk 3 "int" 46))) []]).
  pose (decl := NGenDecl 12 VAR "" [NValueSpec "" "" [mk 1 "f" 18] None
     [NFuncLit (NFuncType 22 empty_fields empty_fields empty_fields) (NBlockStmt 30 [NOther 39 [inner]])];
                NValueSpec "B docs" "" [mk 4 "b" 57] None [NOther 61 []]]).
  pose (file := NFile 1 false "" (mk 0 "p" 9) [decl]).
  exists p_digest, p_ti, p_fs, p_env, (GPkg 1 "ex.org/p" "p" (Some p_mod) [] [file] None None).
  eexists. exists (mk 4 "b" 57), decl. eexists.
  split; [apply wf_pkgb_ok; vm_compute; reflexivity|]. split.
  { assert (H : ∀ i j, i ∈ node_idents file → j ∈ node_idents file → id_ptr i = id_ptr j → i = j).
    { intros i j Hi Hj. rewrite elem_of_list_In in Hi, Hj. vm_compute in Hi, Hj.
      repeat (destruct Hi as [<-|Hi]; [repeat (destruct Hj as [<-|Hj]; [vm_compute; congruence|]); done|]). done. }
    intros f i j Hf Hi Hj. apply elem_of_list_singleton in Hf as ->.
    apply H; unfold node_idents; apply elem_of_list_omap; [exists (NIdent i)|exists (NIdent j)]; done. }
  split; [apply common_valuesb_ok; vm_compute; reflexivity|]. split.
  { eexists; (split; [left|]); eexists _, _, _, _, _, _; (split; [done|]). split; [left|].
    eapply (dd_value _ _ _ _ _ _ _ _ _ (mk 4 "b" 57)); [by left|right; left|left]. }
  split; [done|]. split.
  { unfold visit_package_table. rewrite (res_fold_put p_ti p_env _ p_mod) by done. reflexivity. }
  split; [vm_compute; reflexivity|]. split; [|reflexivity].
  eexists. split; [right; left|]. split; [left|]. vm_compute. reflexivity.
Qed.
Print Assumptions C19_nested_group_refuted.

(** C22: after any sequence of registrations, a position maps to the entry of the
    last registration there that changed its symbol. *)
Theorem C22_last_change_wins : ∀ (regs : list (Z * syminfo)) (p : Z) (x : syminfo),
  pget (foldl (λ t r, pset t r.1 r.2) ∅ regs) p = Some x ↔ last_change p regs x.
Proof. intros regs p x. apply (register_last_change p regs x). Qed.
Print Assumptions C22_last_change_wins.
Theorem C22_unregistered : ∀ (regs : list (Z * syminfo)) (p : Z),
  pget (foldl (λ t r, pset t r.1 r.2) ∅ regs) p = None ↔ (∀ r, r ∈ regs → r.1 ≠ p).
Proof. intros regs p. apply (register_none p regs). Qed.
Print Assumptions C22_unregistered.
Example C22_ex :
  let a := bare_info "a" in let b := bare_info "b" in
  let b' := Info "b" ["doc"] [] KType "" None "" in
  last_change 5 [(5%Z, a); (6%Z, a); (5%Z, b); (5%Z, b')] b.
Proof.
  exists [(5%Z, bare_info "a"); (6%Z, bare_info "a")], [(5%Z, Info "b" ["doc"] [] KType "" None "")].
  split; [done|]. split.
  - intros r Hr. by apply elem_of_list_singleton in Hr as ->.
  - right. exists [], (bare_info "a"), [(6%Z, bare_info "a")]. split; [done|]. split; [|done].
    intros r Hr. by apply elem_of_list_singleton in Hr as ->.
Qed.
