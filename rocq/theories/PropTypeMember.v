(** C63: all members of the types of type declarations, with embedded fields. *)
From Coq Require Import Ascii String.
From stdpp Require Import prelude strings gmap sorting.
From Verif Require Import GoStr Scip GoTypes Packages Symbols Document Lookup Pass1 Pass2 Paths
  Loader Index Ast SpecSymbol SpecDecl SpecLookup SpecOcc SpecIndex
  P_Symbols P_Pass1 P_Link P_Lookup P_Pass2 P_Occ P_Scope P_Index P_Doc PropSymbols PropDecl PropOcc PropIndex PropAnon PropCross ExDecl ExOcc ExIndex ExCross PropNav PropLocal ExLocal PropMember.
Open Scope string_scope.
Open Scope list_scope.

(** *** Specification *)
Definition is_interface (t : node) : bool := match t with NInterfaceType _ _ _ => true | _ => false end.
(** [type_member b fields lits i]: [fields] are members of a declared type (b: the declared type is an interface) or of a
    literal in it; i is the name of a field or method in [fields], the name of an embedded field, however its type is
    written, a member of the literals [lits] nested in the type of a field, or a member of a literal embedded in
    an interface *)
Inductive type_member : bool → list node → list nat → Ast.ident → Prop :=
| tm_named b fields fd fc names ft i : NField fd fc names ft ∈ fields → i ∈ names → type_member b fields [] i
| tm_embedded fields fd fc ft i : NField fd fc [] ft ∈ fields → embedded_ident ft i → type_member false fields [] i
| tm_in b fields fd fc names ft l r fields' lits i : NField fd fc names ft ∈ fields → names ≠ [] → leads_to ft l → literal l r fields' →
    type_member b fields' lits i → type_member b fields (r :: lits) i
| tm_element fields fd fc l r fields' lits i : NField fd fc [] l ∈ fields → literal l r fields' →
    type_member true fields' lits i → type_member true fields lits i.
(** file f declares the type T, with i as member, in literals lits, of its type *)
Definition type_declares (f : node) (T : Ast.ident) (lits : list nat) (i : Ast.ident) : Prop :=
  ∃ p h d nm decls q doc specs sd tps l r fields, f = NFile p h d nm decls ∧ NGenDecl q TYPE doc specs ∈ decls ∧
    NTypeSpec sd T tps l ∈ specs ∧ literal l r fields ∧ type_member (is_interface l) fields lits i.

(** *** Proofs *)
Lemma embedded_poss t i : embedded_ident t i → id_pos i ∈ poss t.
Proof. intros H. apply ident_of_type_expr_poss. rewrite (embedded_ident_list _ _ H). left. Qed.
Lemma type_member_poss b fields lits i : type_member b fields lits i → id_pos i ∈ poss (NFieldList fields).
Proof.
  induction 1 as [b fields fd fc names ft i Hf Hi|fields fd fc ft i Hf Hi|b fields fd fc names ft l r fields' lits i Hf _ Hl Hlit _ IH|fields fd fc l r fields' lits i Hf Hlit _ IH].
  - up (NField fd fc names ft). up (NIdent i). apply poss_ident.
  - up (NField fd fc [] ft). up ft. by apply embedded_poss.
  - up (NField fd fc names ft). up ft. eapply leads_to_poss; [done|]. by eapply literal_fields_poss.
  - up (NField fd fc [] l). up l. by eapply literal_fields_poss.
Qed.
Lemma embedded_sub t i : embedded_ident t i → NIdent i ∈ subnodes t.
Proof.
  induction 1 as [i|x i|p x i _ IH|x k i _ IH|x l i _ IH].
  - apply subnodes_self.
  - eapply subnodes_child; [|apply subnodes_self]. right; left.
  - eapply subnodes_child; [|exact IH]. left.
  - eapply subnodes_child; [|exact IH]. left.
  - eapply subnodes_child; [|exact IH]. left.
Qed.
Lemma type_member_sub b fields lits i : type_member b fields lits i → NIdent i ∈ subnodes (NFieldList fields).
Proof.
  induction 1 as [b fields fd fc names ft i Hf Hi|fields fd fc ft i Hf Hi|b fields fd fc names ft l r fields' lits i Hf _ Hl Hlit _ IH|fields fd fc l r fields' lits i Hf Hlit _ IH];
    (eapply subnodes_child; [exact Hf|]).
  - eapply subnodes_child; [|apply subnodes_self]. cbn. apply elem_of_app. left. by apply elem_of_list_fmap_1.
  - eapply subnodes_child; [|by apply embedded_sub]. cbn. left.
  - eapply subnodes_child; [apply elem_of_app; right; left|].
    eapply subnodes_trans; [by apply leads_to_sub|]. eapply subnodes_child; [by eapply literal_sub|exact IH].
  - eapply subnodes_child; [left|]. eapply subnodes_child; [by eapply literal_sub|exact IH].
Qed.

Section Events.
  Context (digest : string → string) (ti : tinfo).
  Notation tv := (tv digest ti).
  Notation anon_desc := (anon_desc digest).
  Notation has_texts := (has_texts ti).

  Lemma literal_walk l r fields iface cur sc : literal l r fields → tv WALK iface cur sc l = tv WALK iface cur sc (NFieldList fields).
  Proof. by destruct 1. Qed.
  Lemma tv_type_member b fields lits i : type_member b fields lits i → ∀ texts cur sc e,
    has_texts lits texts → wf_pos (NFieldList fields) → (0 < id_pos i)%Z →
    e ∈ tv WALK b cur sc (NFieldList fields) → e_pos e = id_pos i →
    e_descs e = sc ++ map anon_desc texts ++ [Desc (id_name i) Term].
  Proof.
    induction 1 as [b fields fd fc names ft i Hf Hi|fields fd fc ft i Hf Hi|b fields fd fc names ft l r fields' lits i Hf Hn Hl Hlit Hnest IH|fields fd fc l r fields' lits i Hf Hlit Hnest IH];
      intros texts cur sc e Ht Hwf Hp He Hpos.
    - inversion Ht; subst. cbn [map app]. cbn [Pass1.tv] in He.
      destruct (field_event digest ti fields cur sc b fd fc names ft i e Hwf Hf Hi Hp He Hpos) as (E & _). done.
    - inversion Ht; subst. cbn [map app]. cbn [Pass1.tv] in He. apply elem_of_concat_map in He as (f' & Hf' & He).
      assert (f' = NField fd fc [] ft) as ->.
      { eapply (wf_pos_children (NFieldList fields)); [done|done|done|exact Hp| |].
        - rewrite <- Hpos. by eapply tv_poss.
        - up ft. by apply embedded_poss. }
      cbn [Pass1.tv] in He. rewrite (embedded_ident_list _ _ Hi) in He. apply elem_of_list_singleton in He as ->. done.
    - inversion Ht as [|? t ? texts' Hct Hts]; subst. cbn [Pass1.tv] in He.
      assert (Hin : id_pos i ∈ poss ft).
      { eapply leads_to_poss; [done|]. eapply literal_fields_poss; [done|]. by eapply type_member_poss. }
      apply elem_of_concat_map in He as (f' & Hf' & He).
      assert (f' = NField fd fc names ft) as ->.
      { eapply (wf_pos_children (NFieldList fields)); [done|done|done|exact Hp| |].
        - rewrite <- Hpos. by eapply tv_poss.
        - by up ft. }
      assert (wf_pos (NField fd fc names ft)) as Hwf' by (eapply wf_pos_child; [|exact Hwf]; done).
      assert (wf_pos ft) as Hwft by (eapply wf_pos_child; [|exact Hwf']; child_mem).
      cbn [Pass1.tv] in He. destruct names as [|n0 names0]; [done|].
      apply elem_of_concat_map in He as (j & Hj & [->|He]%elem_of_cons).
      + exfalso. cbn in Hpos. eapply (wf_pos_split (NField fd fc (n0 :: names0) ft));
          [done|reflexivity| |by apply elem_of_list_singleton|exact Hp| |exact Hin].
        * apply elem_of_list_fmap_1. exact Hj.
        * rewrite <- Hpos. apply poss_ident.
      + assert (He' : e ∈ tv ANON b cur sc l).
        { eapply tv_anon_unique; [done|done|exact Hp| |done|done]. eapply literal_fields_poss; [done|]. by eapply type_member_poss. }
        rewrite (tv_anon_literal digest ti l r fields' b cur sc t Hlit Hct) in He'.
        cbn [map]. rewrite (IH texts' cur (sc ++ [anon_desc t]) e); [|done| |done|done|done].
        * by rewrite <- !List.app_assoc.
        * eapply literal_wf; [done|]. by eapply leads_to_wf.
    - cbn [Pass1.tv] in He. apply elem_of_concat_map in He as (f' & Hf' & He).
      assert (f' = NField fd fc [] l) as ->.
      { eapply (wf_pos_children (NFieldList fields)); [done|done|done|exact Hp| |].
        - rewrite <- Hpos. by eapply tv_poss.
        - up l. eapply literal_fields_poss; [done|]. by eapply type_member_poss. }
      cbn [Pass1.tv] in He. rewrite (literal_walk l r fields') in He by done.
      eapply IH; [done| |done|exact He|done]. eapply literal_wf; [done|]. eapply (wf_pos_child (NField fd fc [] l)); [left|].
      by eapply wf_pos_child; [|exact Hwf].
  Qed.
  Lemma tv_type_member_in b fields lits i : type_member b fields lits i → ∀ texts cur sc,
    has_texts lits texts → ∃ e, e ∈ tv WALK b cur sc (NFieldList fields) ∧ e_pos e = id_pos i.
  Proof.
    induction 1 as [b fields fd fc names ft i Hf Hi|fields fd fc ft i Hf Hi|b fields fd fc names ft l r fields' lits i Hf Hn Hl Hlit Hnest IH|fields fd fc l r fields' lits i Hf Hlit Hnest IH];
      intros texts cur sc Ht.
    - eexists. split; [by eapply field_event_in|done].
    - eexists. split.
      + cbn [Pass1.tv]. apply elem_of_concat_map. eexists. split; [exact Hf|]. cbn [Pass1.tv]. rewrite (embedded_ident_list _ _ Hi). left.
      + done.
    - inversion Ht as [|? t ? texts' Hct Hts]; subst.
      destruct (IH texts' cur (sc ++ [anon_desc t]) Hts) as (e & He & Hpos). exists e. split; [|done].
      cbn [Pass1.tv]. apply elem_of_concat_map. eexists. split; [exact Hf|]. cbn [Pass1.tv]. destruct names as [|n0 names0]; [done|].
      apply elem_of_concat_map. exists n0. split; [left|]. right. eapply tv_anon_in; [done|].
      by rewrite (tv_anon_literal digest ti l r fields' b cur sc t Hlit Hct).
    - destruct (IH texts cur sc Ht) as (e & He & Hpos). exists e. split; [|done].
      cbn [Pass1.tv]. apply elem_of_concat_map. eexists. split; [exact Hf|]. cbn [Pass1.tv]. by rewrite (literal_walk l r fields').
  Qed.
End Events.

(** *** Declarations and packages *)
Lemma type_member_decl digest ti fs path q doc specs sd T tps l r fields lits texts i e :
  NTypeSpec sd T tps l ∈ specs → literal l r fields → type_member (is_interface l) fields lits i → has_texts ti lits texts →
  wf_pos (NGenDecl q TYPE doc specs) → (0 < id_pos i)%Z →
  e ∈ decl_all digest ti fs path (NGenDecl q TYPE doc specs) → e_pos e = id_pos i →
  e_descs e = Desc path Namespace :: [Desc (id_name T) Type_] ++ map (anon_desc digest) texts ++ [Desc (id_name i) Term].
Proof.
  intros Hs Hl Hn Ht Hwf Hp He Hpos. pose proof (type_member_poss _ _ _ _ Hn) as Hin.
  unfold P_Pass1.decl_all in He. cbn [Pass1.decl_events] in He. rewrite List.app_nil_r in He. cbn [Pass1.tv] in He.
  apply elem_of_concat_map in He as (s & Hs' & He).
  assert (s = NTypeSpec sd T tps l) as ->.
  { eapply (wf_pos_children (NGenDecl q TYPE doc specs)); [done|child_mem|child_mem|exact Hp| |].
    - rewrite <- Hpos. by eapply tv_poss.
    - up l. by eapply literal_fields_poss. }
  assert (Hwfs : wf_pos (NTypeSpec sd T tps l)) by (eapply wf_pos_child; [|exact Hwf]; child_mem).
  cbn [Pass1.tv] in He. apply elem_of_cons in He as [->|He].
  - exfalso. cbn in Hpos. eapply (wf_pos_split (NTypeSpec sd T tps l) [NIdent T; tps] [l]); [done|reflexivity|by left|by left|exact Hp| |].
    + rewrite <- Hpos. apply poss_ident.
    + by eapply literal_fields_poss.
  - rewrite (literal_walk digest ti _ _ _ _ _ _ Hl) in He.
    assert (wf_pos (NFieldList fields)) as Hwff by (eapply literal_wf; [done|]; eapply wf_pos_child; [|exact Hwfs]; child_mem).
    assert (He' : e ∈ Pass1.tv digest ti WALK (is_interface l) (Some (NGenDecl q TYPE doc specs)) (new_scope path ++ [Desc (id_name T) Type_]) (NFieldList fields)).
    { destruct Hl; exact He. }
    rewrite (tv_type_member digest ti _ _ _ _ Hn texts _ _ e Ht Hwff Hp He' Hpos). done.
Qed.
Lemma type_member_decl_in digest ti fs path q doc specs sd T tps l r fields lits texts i :
  NTypeSpec sd T tps l ∈ specs → literal l r fields → type_member (is_interface l) fields lits i → has_texts ti lits texts →
  ∃ e, e ∈ decl_all digest ti fs path (NGenDecl q TYPE doc specs) ∧ e_pos e = id_pos i.
Proof.
  intros Hs Hl Hn Ht.
  destruct (tv_type_member_in digest ti _ _ _ _ Hn texts (Some (NGenDecl q TYPE doc specs)) (new_scope path ++ [Desc (id_name T) Type_]) Ht) as (e & He & Hpos).
  exists e. split; [|done]. unfold P_Pass1.decl_all. apply elem_of_app. left. cbn [Pass1.tv]. apply elem_of_concat_map.
  eexists. split; [exact Hs|]. cbn [Pass1.tv]. right. rewrite (literal_walk digest ti _ _ _ _ _ _ Hl). destruct Hl; exact He.
Qed.
Lemma type_member_table digest ti fs env pkg tbl f T lits texts i :
  wf_pkg_pos pkg → f ∈ p_syntax pkg → type_declares f T lits i → has_texts ti lits texts → (0 < id_pos i)%Z →
  visit_package_table digest ti fs env pkg = Ok tbl →
  ∃ m info, p_module pkg = Some m ∧ tbl !! id_pos i = Some info ∧
    i_symbol info = anon_symbol digest (p_path pkg) m [Desc (id_name T) Type_] texts (id_name i).
Proof.
  intros [Hwf Hsep] HF (p & h & d & nm & decls & q & doc & specs & sd & tps & l & r & fields & -> & Hdecl & Hs & Hl & Hn) Ht Hp Htbl.
  set (decl := NGenDecl q TYPE doc specs) in *.
  assert (Hi : id_pos i ∈ poss decl).
  { unfold decl. up (NTypeSpec sd T tps l). up l. eapply literal_fields_poss; [done|]. by eapply type_member_poss. }
  assert (Hwfd : wf_pos decl) by (eapply wf_pos_child; [|exact (Hwf _ HF)]; child_mem).
  assert (Hu : ∀ e, e ∈ package_events digest ti fs pkg → e_pos e = id_pos i →
    e_descs e = anon_descriptors digest (p_path pkg) [Desc (id_name T) Type_] texts (id_name i)).
  { intros e He Hpos. apply elem_of_concat_map in He as (f' & Hf' & He).
    assert (f' = NFile p h d nm decls) as ->.
    { eapply pairwise_sep_eq; [exact Hsep|done|done|exact Hp| |].
      - rewrite <- Hpos. by eapply file_events_poss.
      - up decl. done. }
    apply file_events_elem in He as (decl' & Hdecl' & He).
    assert (decl' = decl) as ->.
    { eapply (wf_pos_children (NFile p h d nm decls)); [by apply Hwf|child_mem|child_mem|exact Hp| |done].
      rewrite <- Hpos. apply elem_of_app in He as [He|He]; [by eapply tv_poss|].
      destruct decl'; try (by apply elem_of_nil in He).
      - destruct tok; try (by apply elem_of_nil in He); by eapply vv_poss.
      - by eapply fv_poss. }
    by eapply type_member_decl. }
  destruct (type_member_decl_in digest ti fs (p_path pkg) q doc specs sd T tps l r fields lits texts i Hs Hl Hn Ht) as (e0 & He0 & Hp0).
  assert (He0' : e0 ∈ package_events digest ti fs pkg).
  { apply elem_of_concat_map. eexists. split; [exact HF|]. apply file_events_elem. by exists decl. }
  unfold visit_package_table in Htbl. destruct (p_module pkg) as [m|] eqn:Hm.
  - rewrite (res_fold_put ti env pkg m) in Htbl by done. injection Htbl as <-.
    destruct (foldl_put_first ti env m (package_events digest ti fs pkg) ∅ (id_pos i)) as (e & He & Hpos & Hlk).
    + apply lookup_empty.
    + eauto.
    + intros a b Ha Hb Hpa Hpb. unfold event_info. cbn. by rewrite (Hu a), (Hu b).
    + exists m, (event_info ti env m e). split; [done|]. split; [done|]. unfold event_info, anon_symbol. cbn. by rewrite Hu.
  - apply res_fold_no_module in Htbl; [|done]. rewrite Htbl in He0'. by apply elem_of_nil in He0'.
Qed.

(** C63: every field, method, embedded field (of a name, a pointer to one, a qualified or instantiated name) and member of
    a literal nested in the type of a type declaration, however deep: its document describes it, its identifier defines
    it and every use of it refers to it, whatever else the package declares. *)
Theorem C63_type_members : ∀ digest P msgs p f ti T lits texts i par def,
  indexed_with digest P msgs → p ∈ pr_pkgs P → f ∈ p_syntax p → p_info p = Some ti → wf_pkg_pos p →
  type_declares f T lits i → Forall2 (λ r t, ti_canon ti r = Some t) lits texts → (0 < id_pos i)%Z →
  (par, NIdent i) ∈ file_nodes f → visible P ti par i → no_switch ti i →
  ti_defs ti (id_ptr i) = Some def → p_path p ≠ "unsafe" →
  ∃ m, p_module p = Some m ∧
    let s := anon_symbol digest (p_path p) m [Desc (id_name T) Type_] texts (id_name i) in
    describes P msgs p f s ∧ defines P msgs p f i s ∧
    (∀ p2 f2 i2, use_of P p (id_pos i) p2 f2 i2 → refers P msgs p2 f2 i2 s).
Proof.
  intros digest P msgs p f ti T lits texts i par def Hx Hp Hf Hti Hwf Hm Ht Hpos Hnode V S Hdef Hun.
  assert (Hmod : ∃ m, p_module p = Some m).
  { destruct Hx as (objstr & mo & root & version & impl & ie & po & ao & po2 & skip & meta & w & Hix & _).
    eapply project_module; [exact Hix|exact Hp]. }
  destruct Hmod as [m Hmod].
  assert (Hreg : registers digest P p i (anon_symbol digest (p_path p) m [Desc (id_name T) Type_] texts (id_name i))).
  { intros ti' tbl Hti' Hv. assert (ti' = ti) as -> by congruence.
    destruct (type_member_table digest ti (pr_fs P) (pr_env P) p tbl f T lits texts i Hwf Hf Hm Ht Hpos Hv) as (m' & info & Hm' & Hl & Hs).
    assert (m' = m) as -> by congruence. by exists info. }
  assert (Hsub : NIdent i ∈ subnodes f ∧ below_decl f i).
  { destruct Hm as (p0 & h & d & nm & decls & q & doc & specs & sd & tps & l & r & fields & -> & Hdecl & Hs & Hl & Hn).
    assert (NIdent i ∈ subnodes (NGenDecl q TYPE doc specs)) as Hid.
    { eapply subnodes_child; [exact Hs|]. eapply subnodes_child; [right; right; left|].
      eapply subnodes_child; [by eapply literal_sub|]. by eapply type_member_sub. }
    split; [eapply subnodes_child; [|exact Hid]; by right|].
    eexists _, _, _, _, _, _. split; [done|]. split; [exact Hdecl|]. unfold poss. apply elem_of_list_fmap. by exists (NIdent i). }
  destruct Hsub as [Hsub Hb].
  exists m. split; [done|]. cbv zeta. split; [|split].
  - eapply registered_described; [exact Hx|exact Hp|exact Hf|exact Hti|exact Hwf|exact Hb|exact Hpos|exact Hreg|exact Hsub].
  - eapply registered_defined; [exact Hx|exact Hp|exact Hf|exact Hti|exact Hwf|exact Hb|exact Hpos|exact Hreg|exact Hnode|exact V|exact S|exact Hdef].
  - intros p2 f2 i2 Huse. eapply registered_referred; [exact Hx|exact Hp|exact Hf|exact Hti|exact Hwf|exact Hb|exact Hpos|exact Hreg|done|done].
Qed.
Print Assumptions C63_type_members.
