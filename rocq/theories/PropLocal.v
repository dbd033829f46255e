(** C59: what is declared inside a function is local to its document. *)
From Coq Require Import Ascii String.
From stdpp Require Import prelude strings gmap sorting.
From Verif Require Import GoStr Scip GoTypes Packages Symbols Document Lookup Pass1 Pass2 Paths
  Loader Index Ast SpecSymbol SpecDecl SpecLookup SpecOcc SpecIndex
  P_Symbols P_Pass1 P_Link P_Lookup P_Pass2 P_Occ P_Scope P_Index PropDecl PropOcc PropIndex PropCross ExDecl ExOcc ExIndex ExCross PropNav.
Open Scope string_scope.
Open Scope list_scope.

(** Identifier i is inside the receiver, type parameters, parameters or body of a function declaration,
    is a named result of one, or is inside the type parameters of a type declaration. *)
Definition function_scoped (f : node) (i : Ast.ident) : Prop :=
  ∃ p h c nm decls, f = NFile p h c nm decls ∧
  ((∃ doc q e r name q' tps ps rs b x, NFuncDecl doc q e r name (NFuncType q' tps ps rs) b ∈ decls ∧
      x ∈ opt_node r ++ [tps; ps] ++ opt_node b ∧ NIdent i ∈ subnodes x) ∨
   (∃ doc q e r name q' tps ps fields b fd fc names t, NFuncDecl doc q e r name (NFuncType q' tps ps (NFieldList fields)) b ∈ decls ∧
      NField fd fc names t ∈ fields ∧ i ∈ names) ∨
   (∃ q doc specs sd T tps t, NGenDecl q TYPE doc specs ∈ decls ∧ NTypeSpec sd T tps t ∈ specs ∧ NIdent i ∈ subnodes tps)).

Lemma poss_sub i n : NIdent i ∈ subnodes n → id_pos i ∈ poss n.
Proof. intros H. unfold poss. apply elem_of_list_fmap. by exists (NIdent i). Qed.

(** the declaration of function_scoped *)
Lemma scoped_decl f i : function_scoped f i → ∃ p h c nm decls decl, f = NFile p h c nm decls ∧ decl ∈ decls ∧ id_pos i ∈ poss decl.
Proof.
  intros (p & h & c & nm & decls & -> & H). exists p, h, c, nm, decls.
  destruct H as [(doc & q & e & r & name & q' & tps & ps & rs & b & x & Hd & Hx & Hi)|[(doc & q & e & r & name & q' & tps & ps & fields & b & fd & fc & names & t & Hd & Hf & Hi)|(q & doc & specs & sd & T & tps & t & Hd & Hs & Hi)]];
    eexists; (split; [done|]); (split; [exact Hd|]).
  - apply poss_sub in Hi. rewrite !elem_of_app, !elem_of_cons, elem_of_nil in Hx. destruct Hx as [Hx|[[->|[->|[]]]|Hx]].
    + eapply poss_child; [|exact Hi]. cbn. rewrite elem_of_app. by left.
    + up (NFuncType q' tps ps rs). up tps. done.
    + up (NFuncType q' tps ps rs). up ps. done.
    + eapply poss_child; [|exact Hi]. cbn. rewrite elem_of_app. right. by do 2 right.
  - up (NFuncType q' tps ps (NFieldList fields)). up (NFieldList fields). up (NField fd fc names t). up (NIdent i). apply poss_ident.
  - eapply spec_in_poss; [exact Hs|]. up tps. by apply poss_sub.
Qed.

Lemma scoped_decl_events digest ti fs path f i : wf_pos f → function_scoped f i → (0 < id_pos i)%Z →
  ∀ e, e ∈ file_events digest ti fs path f → e_pos e ≠ id_pos i.
Proof.
  intros Hwf (p & h & c & nm & decls & -> & H) Hpos ev Hev E.
  assert (Hd : ∃ d, d ∈ decls ∧ (ev ∈ tv digest ti WALK false None (new_scope path) d ∨ ev ∈ decl_events digest ti fs path d)).
  { unfold file_events in Hev. apply elem_of_app in Hev as [Hev|Hev].
    - cbn [tv] in Hev. apply elem_of_concat_map in Hev as (d & Hd & Hev). eauto.
    - apply elem_of_concat_map in Hev as (d & Hd & Hev). eauto. }
  destruct Hd as (d & Hd & Hd').
  assert (Hpd : id_pos i ∈ poss d).
  { rewrite <- E. destruct Hd' as [Hd'|Hd']; [by eapply tv_poss|]. unfold decl_events in Hd'. destruct d; try by apply elem_of_nil in Hd'.
    - destruct tok; first [by apply elem_of_nil in Hd'|by eapply vv_poss].
    - by eapply fv_poss. }
  assert (Hsame : ∀ d', d' ∈ decls → id_pos i ∈ poss d' → d = d').
  { intros d' Hd1 Hp'. eapply (wf_pos_children (NFile p h c nm decls)); [done| | |exact Hpos|done|done]; by right. }
  assert (Hwd : wf_pos d) by (eapply wf_pos_child; [|exact Hwf]; by right).
  destruct H as [(doc & q & e & r & name & q' & tps & ps & rs & b & x & Hdd & Hx & Hi)|[(doc & q & e & r & name & q' & tps & ps & fields & b & fd & fc & names & t & Hdd & Hf & Hi)|(q & doc & specs & sd & T & tps & t & Hdd & Hs & Hi)]].
  - apply poss_sub in Hi. rewrite !elem_of_app, !elem_of_cons, elem_of_nil in Hx.
    assert (d = NFuncDecl doc q e r name (NFuncType q' tps ps rs) b) as ->.
    { apply Hsame; [done|]. destruct Hx as [Hx|[[->|[->|[]]]|Hx]].
      - eapply poss_child; [|exact Hi]. cbn. rewrite elem_of_app. by left.
      - up (NFuncType q' tps ps rs). up tps. done.
      - up (NFuncType q' tps ps rs). up ps. done.
      - eapply poss_child; [|exact Hi]. cbn. rewrite elem_of_app. right. by do 2 right. }
    destruct Hd' as [Hd'|Hd']; [by apply elem_of_nil in Hd'|].
    unfold decl_events in Hd'. cbn [fv] in Hd'. apply elem_of_cons in Hd' as [->|Hd'].
    + cbn in E. assert (Hn : id_pos i ∈ poss (NIdent name)) by (rewrite <- E; apply poss_ident).
      destruct Hx as [Hx|Hx].
      * eapply (wf_pos_split _ (opt_node r)); [exact Hwd|reflexivity|exact Hx|left|exact Hpos|done|done].
      * destruct Hx as [Hx|Hx].
        -- eapply (wf_pos_split _ (opt_node r ++ [NIdent name])); [exact Hwd|cbn; by rewrite <- List.app_assoc| | |exact Hpos|exact Hn|].
           { rewrite elem_of_app. right. left. } { left. }
           destruct Hx as [->|[->|[]]]; [up tps|up ps]; done.
        -- eapply (wf_pos_split _ (opt_node r ++ [NIdent name])); [exact Hwd|cbn; by rewrite <- List.app_assoc| | |exact Hpos|exact Hn|exact Hi].
           { rewrite elem_of_app. right. left. } { cbn. right. done. }
    + assert (Hrs : id_pos i ∈ poss rs) by (rewrite <- E; by eapply fv_poss).
      assert (Hft : id_pos i ∈ poss (NFuncType q' tps ps rs)) by (up rs; done).
      assert (Hwt : wf_pos (NFuncType q' tps ps rs)).
      { eapply wf_pos_child; [|exact Hwd]. cbn. rewrite elem_of_app. right. right. left. }
      destruct Hx as [Hx|[[->|[->|[]]]|Hx]].
      * eapply (wf_pos_split _ (opt_node r)); [exact Hwd|reflexivity|exact Hx|right; left|exact Hpos|done|done].
      * eapply (wf_pos_split _ [tps] [ps; rs]); [exact Hwt|reflexivity|left|right; left|exact Hpos|done|done].
      * eapply (wf_pos_split _ [tps; ps] [rs]); [exact Hwt|reflexivity|right; left|left|exact Hpos|done|done].
      * eapply (wf_pos_split _ (opt_node r ++ [NIdent name; NFuncType q' tps ps rs])); [exact Hwd|cbn; by rewrite <- List.app_assoc| |exact Hx|exact Hpos|exact Hft|exact Hi].
        rewrite elem_of_app. right. right. left.
  - assert (Hfi : id_pos i ∈ poss (NField fd fc names t)) by (up (NIdent i); apply poss_ident).
    assert (d = NFuncDecl doc q e r name (NFuncType q' tps ps (NFieldList fields)) b) as ->.
    { apply Hsame; [done|]. up (NFuncType q' tps ps (NFieldList fields)). up (NFieldList fields). up (NField fd fc names t). done. }
    destruct Hd' as [Hd'|Hd']; [by apply elem_of_nil in Hd'|].
    unfold decl_events in Hd'. cbn [fv] in Hd'. apply elem_of_cons in Hd' as [->|Hd'].
    + cbn in E. eapply (wf_pos_split _ (opt_node r ++ [NIdent name])); [exact Hwd|cbn; by rewrite <- List.app_assoc| |left|exact Hpos| |].
      { rewrite elem_of_app. right. left. } { rewrite <- E. apply poss_ident. }
      up (NFieldList fields). up (NField fd fc names t). done.
    + assert (Hwt : wf_pos (NFieldList fields)).
      { apply (wf_pos_child (NFuncType q' tps ps (NFieldList fields))); [cbn; do 2 right; left|].
        eapply wf_pos_child; [|exact Hwd]. cbn. rewrite elem_of_app. right. right. left. }
      apply fvl_ev in Hd' as (x & Hx & Hd').
      assert (x = NField fd fc names t) as ->.
      { eapply (wf_pos_children (NFieldList fields)); [done|done|done|exact Hpos| |done]. rewrite <- E. by eapply fv_poss. }
      cbn [fv] in Hd'.
      eapply (wf_pos_split (NField fd fc names t) (idents names) [t]); [eapply wf_pos_child; [|exact Hwt]; done|reflexivity| |left|exact Hpos| |].
      { apply elem_of_list_fmap. by exists i. } { apply poss_ident. } rewrite <- E. by eapply fv_poss.
  - apply poss_sub in Hi.
    assert (d = NGenDecl q TYPE doc specs) as ->.
    { apply Hsame; [done|]. eapply spec_in_poss; [exact Hs|]. up tps. done. }
    destruct Hd' as [Hd'|Hd']; [|by apply elem_of_nil in Hd'].
    cbn [tv] in Hd'. apply elem_of_concat_map in Hd' as (s & Hs' & Hd').
    assert (s = NTypeSpec sd T tps t) as ->.
    { eapply (wf_pos_children (NGenDecl q TYPE doc specs)); [done|done|done|exact Hpos| |up tps; done]. rewrite <- E. by eapply tv_poss. }
    assert (Hws : wf_pos (NTypeSpec sd T tps t)) by (eapply wf_pos_child; [|exact Hwd]; done).
    cbn [tv] in Hd'. apply elem_of_cons in Hd' as [->|Hd'].
    + cbn in E. eapply (wf_pos_split _ [NIdent T] [tps; t]); [exact Hws|reflexivity|left|left|exact Hpos| |exact Hi]. rewrite <- E. apply poss_ident.
    + eapply (wf_pos_split _ [NIdent T; tps] [t]); [exact Hws|reflexivity|right; left|left|exact Hpos|exact Hi|]. rewrite <- E. by eapply tv_poss.
Qed.

(** the declaration pass registers nothing at the position of i, which is in a declaration of f *)
Definition unregistered (f : node) (i : Ast.ident) : Prop :=
  (∃ p h c nm decls decl, f = NFile p h c nm decls ∧ decl ∈ decls ∧ id_pos i ∈ poss decl) ∧
  ∀ digest ti fs path e, e ∈ file_events digest ti fs path f → e_pos e ≠ id_pos i.
Lemma scoped_unregistered f i : wf_pos f → function_scoped f i → (0 < id_pos i)%Z → unregistered f i.
Proof. intros Hwf H Hp. split; [by apply scoped_decl|]. intros digest ti fs path e. by eapply scoped_decl_events. Qed.

Lemma unregistered_not_clause p first rest f i : p_syntax p = first :: rest → f ∈ p_syntax p → wf_pkg_pos p →
  (∃ a b c d e, first = NFile a b c d e) → unregistered f i → (0 < id_pos i)%Z → id_pos i ≠ id_pos (file_ident first).
Proof.
  intros Hsy Hf [Hwf Hsep] (a & b & c & nm0 & decls0 & ->) Hd Hpos E. cbn in E.
  assert (Hnm : id_pos i ∈ poss (NFile a b c nm0 decls0)).
  { apply (poss_child _ (NIdent nm0)); [left|]. unfold poss. cbn. rewrite E. left. }
  destruct Hd as [(p1 & hd1 & d1 & nm1 & decls1 & decl & -> & Hdecl & Hi) _].
  rewrite Hsy in Hf, Hsep. apply elem_of_cons in Hf as [Hf|Hf].
  - injection Hf as -> -> -> -> ->.
    specialize (Hwf (NFile a b c nm0 decls0)). rewrite Hsy in Hwf. specialize (Hwf (elem_of_list_here _ _)).
    specialize (Hwf _ (subnodes_self _)). cbn in Hwf. destruct Hwf as [Hwf _].
    apply (Hwf decl Hdecl (id_pos i) Hpos); [|done]. unfold poss. cbn. rewrite E. left.
  - cbn in Hsep. destruct Hsep as [Hsep _]. apply (Hsep _ Hf (id_pos i) Hpos Hnm).
    eapply poss_child; [|exact Hi]. by right.
Qed.

(** no table entry for what is not registered *)
Lemma unregistered_table digest env fs p f ti tbl i : pass1_table digest env fs p tbl → p_info p = Some ti →
  f ∈ p_syntax p → wf_pkg_pos p → (∀ f', f' ∈ p_syntax p → ∃ a b c d e, f' = NFile a b c d e) →
  unregistered f i → (0 < id_pos i)%Z → tbl !! id_pos i = None.
Proof.
  intros Ht Hti Hf Hwf Hfiles Hsc Hpos. unfold pass1_table in Ht.
  destruct (p_syntax p) as [|first rest] eqn:Hsy; [by apply elem_of_nil in Hf|]. rewrite Hti in Ht.
  destruct Ht as (tbl0 & m & Hv & Hm & ->).
  assert (Hne0 : id_pos i ≠ id_pos (file_ident first)).
  { eapply unregistered_not_clause; [exact Hsy|by rewrite Hsy|done|apply Hfiles; left|done|done]. }
  rewrite pset_other by done.
  destruct (tbl0 !! id_pos i) eqn:E; [|done]. exfalso.
  unfold visit_package_table in Hv. rewrite (res_fold_put ti env p m) in Hv by done. injection Hv as <-.
  match type of E with ?x = _ => assert (Hne : x ≠ None) by (rewrite E; done) end.
  apply foldl_put_dom in Hne as [Hne|(e & He & Hep)]; [by rewrite lookup_empty in Hne|].
  apply elem_of_concat_map in He as (f' & Hf' & He).
  assert (f' = f) as ->.
  { destruct Hwf as [_ Hsep]. eapply pairwise_sep_eq; [exact Hsep|done|by rewrite Hsy|exact Hpos| |].
    - rewrite <- Hep. by eapply file_events_poss.
    - destruct (proj1 Hsc) as (p1 & hd1 & d1 & nm1 & decls1 & decl & -> & Hdecl & Hi). eapply poss_child; [|exact Hi]. by right. }
  by apply (proj2 Hsc _ _ _ _ _ He).
Qed.


(** the numbering of the locals of a file *)
Lemma numbering P msgs p f ti : indexed P msgs → p ∈ pr_pkgs P → f ∈ p_syntax p → p_info p = Some ti → wf_pkg_pos p →
  ∃ ld : option node * node → option (Z * obj),
    (∀ par i d, (par, NIdent i) ∈ file_nodes f → unregistered f i → (0 < id_pos i)%Z → visible P ti par i → no_switch ti i →
       ti_defs ti (id_ptr i) = Some d → is_Some (ld (par, NIdent i))) ∧
    (∀ l1 par i l2, file_nodes f = l1 ++ (par, NIdent i) :: l2 → is_Some (ld (par, NIdent i)) →
       defines P msgs p f i (local_name (length (omap ld l1)))).
Proof.
  intros (digest & objstr & mo & root & version & impl & ie & po & ao & po2 & skip & meta & w & Hix & Hmo & H1 & H2 & H3 & Hic & Hrun)
    Hp Hf Hti Hwf.
  destruct P as [env objs fs h all proj ps]. cbn in *.
  destruct (success digest env objs fs h objstr mo root version all proj ps impl ie po ao po2 skip meta w Hix Hmo H1 H2 H3 Hic msgs Hrun) as (ds & exts & g0 & g & kk & -> & Htab & _ & Hst & Hds).
  assert ((p, f) ∈ files_in_order ps) as [n Hi]%elem_of_list_lookup by by apply files_elem.
  destruct (Forall2_lookup_l _ _ _ _ _ Hds Hi) as (dd & Hdn & Hdoc). cbn in Hdoc.
  destruct Hdoc as (ti' & tbl & st & sym & name & torder & lorder & Hti' & Hname & Hg' & _ & Hv & Hto & Hlo & ->).
  assert (ti' = ti) as -> by congruence.
  destruct (tpj_info _ _ _ _ (ix_typed _ _ _ _ _ _ Hix) p f Hp Hf) as (ti' & name' & Hti2 & Htf & Hdi & _).
  assert (ti' = ti) as -> by congruence.
  exists (local_def g p ti tbl). split.
  - intros par i d Hin Hsc Hpos V S Hd.
    pose proof (visible_plain (Project env objs fs h all proj ps) digest g0 g ti par i (ix_loaded _ _ _ _ _ _ Hix) Htab Hst V) as P1.
    apply no_switch_none in S.
    assert (Hat : o_pos d = id_pos i) by (eapply (proj1 Hdi); [|exact Hd]; change (NIdent i) with (snd (par, NIdent i)); by eapply file_nodes_sub).
    destruct (tk_proj _ _ _ _ _ _ _ Htab p Hp) as (tbl0 & Hg & Ht).
    assert (Hn : tbl0 !! id_pos i = None).
    { eapply unregistered_table; [exact Ht|exact Hti|exact Hf|done| |done|done].
      intros f' Hf'. destruct (tpj_info _ _ _ _ (ix_typed _ _ _ _ _ _ Hix) p f' Hp Hf') as (ti' & name'' & _ & Htf' & _).
      destruct (wff_file _ _ _ _ (tf_wf _ _ _ _ _ Htf')) as (a & b & c & e & e' & ->). eauto 10. }
    destruct (same_tables_lookup _ _ _ _ _ Hst Hg) as (tbl1 & Hg1 & Hsame).
    assert (tbl1 = tbl) as -> by congruence. specialize (Hsame (id_pos i)). rewrite Hn in Hsame.
    unfold local_def. rewrite P1, S, Hd. unfold registered. rewrite Hat. destruct (tbl !! id_pos i) eqn:E; [done|]. rewrite Hg', E. by eexists.
  - intros l1 par i l2 Hsplit [[q u] Hld].
    pose proof (lk_answers env _ root version g _ _ _ _ Htf) as Ha.
    destruct (visited_occs _ _ _ _ _ _ _ _ _ _ _ _ _ Htf Ha st Hv) as (Hnd & Ho & _).
    destruct (ldef_occ g fs p ti tbl (imports_of h p) (lk env root version g) ([] ++ omap (local_def g p ti tbl) l1) _ q u Hld)
      as (i1 & encl & Hi1 & Hocc). cbn in Hi1. injection Hi1 as <-.
    eexists _, _. split; [exists n; rewrite documents_msgs; split; [exact Hi|exact Hdn]|]. cbn [to_document d_occs]. rewrite Ho.
    split; [right; apply nsoccs_elem; exists l1, (par, NIdent i), l2; split; [done|exact Hocc]|]. done.
Qed.

(** no table entry for what is function scoped *)
Lemma scoped_table digest env fs p f ti tbl i : pass1_table digest env fs p tbl → p_info p = Some ti →
  f ∈ p_syntax p → wf_pkg_pos p → (∀ f', f' ∈ p_syntax p → ∃ a b c d e, f' = NFile a b c d e) →
  function_scoped f i → (0 < id_pos i)%Z → tbl !! id_pos i = None.
Proof.
  intros Ht Hti Hf Hwf Hfiles Hsc Hpos. eapply unregistered_table; [exact Ht|exact Hti|exact Hf|done|done| |done].
  apply scoped_unregistered; [by apply Hwf|done|done].
Qed.

(** C59: whatever a successful run finds declared inside a function declaration (or as a type parameter of a
    type declaration) gets a document-local symbol, ... *)
Theorem C59_function_locals_partial : ∀ P msgs p f ti par i d,
  indexed P msgs → p ∈ pr_pkgs P → f ∈ p_syntax p → p_info p = Some ti → wf_pkg_pos p →
  (par, NIdent i) ∈ file_nodes f → function_scoped f i → (0 < id_pos i)%Z →
  visible P ti par i → no_switch ti i → ti_defs ti (id_ptr i) = Some d →
  ∃ s, is_local s ∧ defines P msgs p f i s.
Proof.
  intros P msgs p f ti par i d Hx Hp Hf Hti Hwf Hin Hsc Hpos V S Hd.
  destruct (numbering P msgs p f ti Hx Hp Hf Hti Hwf) as (ld & Hl & Hn).
  pose proof Hin as (l1 & l2 & Hs)%elem_of_list_split.
  eexists. split; [|eapply Hn; [exact Hs|eapply Hl; [exact Hin|by apply scoped_unregistered; [apply Hwf|..]|done..]]]. apply local_name_local.
Qed.
Print Assumptions C59_function_locals_partial.

(** ... and two different declarations of a file get different symbols. *)
Theorem C59_distinct_locals_partial : ∀ P msgs p f ti l1 par1 i1 d1 l2 par2 i2 d2 l3,
  indexed P msgs → p ∈ pr_pkgs P → f ∈ p_syntax p → p_info p = Some ti → wf_pkg_pos p →
  file_nodes f = l1 ++ (par1, NIdent i1) :: l2 ++ (par2, NIdent i2) :: l3 →
  function_scoped f i1 → (0 < id_pos i1)%Z → visible P ti par1 i1 → no_switch ti i1 → ti_defs ti (id_ptr i1) = Some d1 →
  function_scoped f i2 → (0 < id_pos i2)%Z → visible P ti par2 i2 → no_switch ti i2 → ti_defs ti (id_ptr i2) = Some d2 →
  ∃ s1 s2, s1 ≠ s2 ∧ defines P msgs p f i1 s1 ∧ defines P msgs p f i2 s2.
Proof.
  intros P msgs p f ti l1 par1 i1 d1 l2 par2 i2 d2 l3 Hx Hp Hf Hti Hwf Hsplit F1 P1 V1 S1 D1 F2 P2 V2 S2 D2.
  destruct (numbering P msgs p f ti Hx Hp Hf Hti Hwf) as (ld & Hl & Hn).
  assert (L1 : is_Some (ld (par1, NIdent i1))).
  { eapply Hl; [|by apply scoped_unregistered; [apply Hwf|..]|done..]. rewrite Hsplit, elem_of_app, elem_of_cons. auto. }
  assert (L2 : is_Some (ld (par2, NIdent i2))).
  { eapply Hl; [|by apply scoped_unregistered; [apply Hwf|..]|done..]. rewrite Hsplit, elem_of_app, elem_of_cons, elem_of_app, elem_of_cons. auto. }
  eexists _, _. split; [|split; [eapply Hn; [exact Hsplit|done]|eapply (Hn (l1 ++ (par1, NIdent i1) :: l2)); [rewrite Hsplit, <- List.app_assoc; reflexivity|done]]].
  intros E%local_name_inj. rewrite omap_app, app_length in E. destruct L1 as [x L1].
  unfold omap in E. cbn in E. rewrite L1 in E. cbn in E. lia.
Qed.
Print Assumptions C59_distinct_locals_partial.
