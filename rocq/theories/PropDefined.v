(** C75: every symbol that a document describes is defined in the document. *)
From Coq Require Import Ascii String.
From stdpp Require Import prelude strings gmap sorting.
From Verif Require Import GoStr Scip GoTypes Packages Symbols Document Lookup Pass1 Pass2 Paths
  Loader Index Ast SpecSymbol SpecDecl SpecLookup SpecOcc SpecIndex
  P_Symbols P_Pass1 P_Link P_Lookup P_Pass2 P_Occ P_Scope P_Index P_Doc PropSymbols PropDecl PropOcc PropIndex PropCross PropNav PropMember PropAnon PropReach.
Open Scope string_scope.
Open Scope list_scope.

(** *** Specification *)
(** the identifiers that a node declares by name: types, values, functions, named fields, methods of interfaces,
    parameters and results *)
Definition declared_names (n : node) : list Ast.ident :=
  match n with
  | NTypeSpec _ nm _ _ => [nm]
  | NValueSpec _ _ names _ _ => names
  | NFuncDecl _ _ _ _ nm _ _ => [nm]
  | NField _ _ names _ => names
  | _ => []
  end.
(** the name of a type expression: T in T, p.T, *T, ~T, T[A] *)
Inductive type_name : node → Ast.ident → Prop :=
| tn_ident i : type_name (NIdent i) i
| tn_sel x i : type_name (NSelectorExpr x i) i
| tn_star p x i : type_name x i → type_name (NStarExpr p x) i
| tn_unary p x i : type_name x i → type_name (NUnaryExpr p x) i
| tn_index x k i : type_name x i → type_name (NIndexExpr x k) i
| tn_indices x l i : type_name x i → type_name (NIndexListExpr x l) i.
(** i is the type name of a field without name in f: an embedded field, an element embedded in an interface, an
    unnamed parameter or result; pos is its position or that of the field *)
Definition unnamed (f : node) (i : Ast.ident) (pos : Z) : Prop :=
  ∃ d c t, NField d c [] t ∈ subnodes f ∧ type_name t i ∧ (pos = id_pos i ∨ pos = node_pos t).
(** what go/types records for file f: an object for every name that is declared (never that of a type switch),
    and embedded fields are of types of loaded packages *)
Record names_recorded (P : project) (ti : tinfo) (f : node) : Prop := NamesRecorded {
  nr_names : ∀ m i, m ∈ subnodes f → i ∈ declared_names m → id_name i ≠ "_" →
    is_Some (ti_defs ti (id_ptr i)) ∧ no_switch ti i;
  nr_unnamed : ∀ par i, (par, NIdent i) ∈ file_nodes f → unnamed f i (id_pos i) → id_name i ≠ "_" →
    is_Some (ti_defs ti (id_ptr i)) → visible P ti par i ∧ no_switch ti i }.

(** *** The origin of the registered symbols *)
Lemma type_name_iff t i : i ∈ ident_of_type_expr t ↔ type_name t i.
Proof.
  split.
  - revert i. induction t; cbn [ident_of_type_expr]; intros i' H; try (by apply elem_of_nil in H);
      try (apply elem_of_list_singleton in H as ->; constructor); constructor; eauto.
  - induction 1; cbn; try (by left); auto.
Qed.
Lemma type_name_sub t i : type_name t i → NIdent i ∈ subnodes t.
Proof.
  induction 1.
  - apply subnodes_self.
  - eapply (subnodes_child _ (NIdent i)); [child_mem|apply subnodes_self].
  - eapply (subnodes_child _ x); [child_mem|done].
  - eapply (subnodes_child _ x); [child_mem|done].
  - eapply (subnodes_child _ x); [child_mem|done].
  - eapply (subnodes_child _ x); [child_mem|done].
Qed.
Definition origin (n : node) (e : event) : Prop :=
  (∃ m, m ∈ subnodes n ∧ e_ident e ∈ declared_names m ∧ e_pos e = id_pos (e_ident e)) ∨ unnamed n (e_ident e) (e_pos e).
Lemma origin_child n c e : c ∈ node_children n → origin c e → origin n e.
Proof.
  intros Hc [(m & Hm & H)|(d & cc & t & H & H')].
  - left. exists m. split; [by eapply subnodes_child|done].
  - right. exists d, cc, t. split; [by eapply subnodes_child|done].
Qed.
Lemma origin_name n i e : i ∈ declared_names n → e_ident e = i → e_pos e = id_pos i → origin n e.
Proof. intros Hi <- Hp. left. exists n. split; [apply subnodes_self|done]. Qed.
Lemma origin_unnamed d c t i e : i ∈ ident_of_type_expr t → e_ident e = i → e_pos e = id_pos i ∨ e_pos e = node_pos t →
  origin (NField d c [] t) e.
Proof.
  intros Hi%type_name_iff <- Hp. right. exists d, c, t. split; [apply subnodes_self|done].
Qed.
Ltac upo c := apply (origin_child _ c); [child_mem|].

Section Origin.
  Context (digest : string → string) (ti : tinfo) (fs : fset).
  Notation tv := (tv digest ti).
  Notation vv := (vv digest ti fs).
  Notation vvl := (vvl digest ti fs).
  Notation vvnames := (vvnames digest ti fs).

  Lemma tv_origin n : ∀ m iface cur sc e, e ∈ tv m iface cur sc n → origin n e.
  Proof.
    induction n using node_ind'; intros md iface cur sc ev;
      destruct md; cbn [Pass1.tv]; try (by intros ?%elem_of_nil).
    - destruct ns as [|i0 ns].
      + destruct iface.
        * intros He. upo n. eauto.
        * intros (i & -> & Hi)%elem_of_list_fmap. eapply origin_unnamed; [exact Hi|done|by left].
      + rewrite elem_of_concat_map. intros (i & Hi & [->|He]%elem_of_cons).
        * by eapply origin_name.
        * upo n. eauto.
    - rewrite elem_of_concat_map. intros (x & Hx & He). rewrite Forall_forall in H. upo x. eauto.
    - intros He. upo n. eauto.
    - destruct (String.eqb _ _); [by intros ?%elem_of_nil|]. intros He. upo n. eauto.
    - intros He. upo n. eauto.
    - destruct (String.eqb _ _); [by intros ?%elem_of_nil|]. intros He. upo n. eauto.
    - rewrite elem_of_app. intros [He|He]; [upo n1|upo n2]; eauto.
    - intros He. upo n. eauto.
    - intros He. upo n. eauto.
    - intros [->|He]%elem_of_cons; [by eapply origin_name; [left|..]|]. upo n3. eauto.
    - rewrite elem_of_concat_map. intros (x & Hx & He). rewrite Forall_forall in H. upo x. eauto.
    - rewrite elem_of_concat_map. intros (x & Hx & He). rewrite Forall_forall in H. upo x. eauto.
  Qed.

  Lemma vvl_origin n l : Forall (λ x, ∀ m st e, e ∈ (vv m x st).2 → origin x e) l →
    (∀ x, x ∈ l → x ∈ node_children n) → ∀ st e, e ∈ (vvl l st).2 → origin n e.
  Proof.
    intros HF Hc st e (x & st' & Hx & He)%vvl_ev. rewrite Forall_forall in HF. apply (origin_child n x); eauto.
  Qed.
  Lemma vv_origin n : ∀ m st e, e ∈ (vv m n st).2 → origin n e.
  Proof.
    induction n using node_ind'; intros md st ev; destruct md; cbn [Pass1.vv];
      fold vvl;
      try (by intros ?%elem_of_nil).
    - destruct ns as [|i0 ns0].
      + cbn. intros (i & -> & Hi)%elem_of_list_fmap. eapply origin_unnamed; [exact Hi|done|by right].
      + change (ev ∈ (vvnames (NField d c (i0 :: ns0) n) n (i0 :: ns0) st).2
                → origin (NField d c (i0 :: ns0) n) ev).
        intros (i & st' & Hi & [->|He])%vvnames_ev.
        * by eapply origin_name.
        * upo n. eauto.
    - eapply vvl_origin; eauto.
    - intros He. upo n. eauto.
    - destruct (String.eqb _ _); [by intros ?%elem_of_nil|]. rewrite anon_evs.
      intros He. upo n. eauto.
    - intros He. upo n. eauto.
    - destruct (String.eqb _ _); [by intros ?%elem_of_nil|]. rewrite anon_evs.
      intros He. upo n. eauto.
    - intros [He|[He|He]%seq_ev]%seq_ev; [upo n1|upo n2|upo n3]; eauto.
    - intros [He|He]%seq_ev; [upo n1|upo n2]; eauto.
    - intros [He|He]%seq_ev; [upo n1|upo n2]; eauto.
    - intros [He|He]%seq_ev.
      + destruct l as [x|]; [|by apply elem_of_nil in He]. upo x. cbn in *; eauto.
      + upo n. eauto.
    - intros He. upo n. eauto.
    - intros He. upo n. eauto.
    - intros He. upo n. eauto.
    - intros He. upo n. eauto.
    - intros He. upo n. eauto.
    - intros He. upo n. eauto.
    - intros [He|He]%seq_ev; [upo n1|upo n2]; eauto.
    - intros [He|He]%seq_ev; [upo n1|upo n2]; eauto.
    - intros [He|He]%seq_ev; [upo n; eauto|]. eapply vvl_origin; eauto. intros; child_mem.
    - intros He. upo n. eauto.
    - intros [He|He]%seq_ev; [upo n1|upo n2]; eauto.
    - eapply vvl_origin; eauto.
    - intros [He|He]%seq_ev; [upo n2|upo n3]; eauto.
    - intros He0. apply (vv_valuespec_ev digest ti fs d c ns t vs st) in He0
        as [(i & Hi & ->)|[(t0 & st' & -> & He)|(x & st' & Hx & He)]].
      + by eapply origin_name.
      + upo t0. eauto.
      + rewrite Forall_forall in H0. upo x. eauto.
    - destruct k; try (by intros ?%elem_of_nil); eapply vvl_origin; eauto.
    - intros [He|[He|He]%seq_ev]%seq_ev.
      + destruct r as [x|]; [|by apply elem_of_nil in He]. upo x. cbn in *; eauto.
      + upo n0. eauto.
      + destruct b as [x|]; [|by apply elem_of_nil in He]. upo x. cbn in *; eauto.
    - eapply vvl_origin; eauto. intros; child_mem.
    - eapply vvl_origin; eauto.
  Qed.
  Lemma fvl_origin n sc l e : Forall (λ x, ∀ sc e, e ∈ fv sc x → origin x e) l →
    (∀ x, x ∈ l → x ∈ node_children n) → e ∈ fvl sc l → origin n e.
  Proof. intros HF Hc (x & Hx & He)%fvl_ev. rewrite Forall_forall in HF. apply (origin_child n x); eauto. Qed.
  Lemma iface_origin sc m e : e ∈ iface_method_events sc m → origin m e.
  Proof.
    destruct m; cbn [iface_method_events]; try (by intros ?%elem_of_nil).
    rewrite elem_of_concat_map. intros (f & Hf & He). upo f.
    destruct f; try (by apply elem_of_nil in He).
    apply elem_of_list_fmap in He as (i & -> & Hi). by eapply origin_name.
  Qed.
  Lemma fv_origin n : ∀ sc e, e ∈ fv sc n → origin n e.
  Proof.
    induction n using node_ind'; intros sc ev; cbn [fv]; fold (fvl sc);
      rewrite ?elem_of_app; try (by intros ?%elem_of_nil);
      try (by intros He; eapply fvl_origin; eauto; intros; child_mem);
      try (by intros He; upo n; eauto);
      try (by intros [He|He]; [upo n1|upo n2]; eauto).
    - intros He. upo n. by eapply iface_origin.
    - intros He. upo n3. eauto.
    - intros [He|He]; [|upo n; eauto]. destruct l as [x|]; [|by apply elem_of_nil in He].
      upo x. cbn in *; eauto.
    - intros [He|He]; [upo n; eauto|]. eapply fvl_origin; eauto. intros; child_mem.
    - intros [He|He]; [upo n2|upo n3]; eauto.
    - intros [He|He].
      + destruct t as [x|]; [|by apply elem_of_nil in He]. upo x. cbn in *; eauto.
      + eapply fvl_origin; eauto. intros; child_mem.
    - intros [->|He]%elem_of_cons; [by eapply origin_name; [left|..]|]. upo n0. eauto.
  Qed.
  Lemma package_events_origin pkg e : e ∈ package_events digest ti fs pkg → ∃ f, f ∈ p_syntax pkg ∧ origin f e.
  Proof.
    intros (f & Hf & He)%elem_of_concat_map. exists f. split; [done|]. unfold file_events in He. apply elem_of_app in He as [He|He].
    - by apply tv_origin in He.
    - destruct f; try (by apply elem_of_nil in He). apply elem_of_concat_map in He as (d & Hd & He). apply (origin_child _ d); [by right|].
      unfold decl_events in He. destruct d; try (by apply elem_of_nil in He).
      + match type of He with context [match ?t with VAR => _ | _ => _ end] => destruct t end;
          try (by apply elem_of_nil in He); by apply vv_origin in He.
      + by apply fv_origin in He.
  Qed.
End Origin.

(** *** The index *)
(** the parent of a node below a declaration *)
Lemma below_file f m : (∃ p h d nm decls, f = NFile p h d nm decls) → m ∈ subnodes f → m ≠ f → m ≠ NIdent (file_ident f) →
  ∃ decl, decl ∈ file_decls f ∧ m ∈ subnodes decl.
Proof.
  intros (p & h & d & nm & decls & ->) Hm Hne Hnm. apply subnodes_elem in Hm as [->|(c & Hc & Hm)]; [done|].
  cbn in Hc. apply elem_of_cons in Hc as [->|Hc]; [|by exists c].
  exfalso. apply Hnm. rewrite subnodes_eq in Hm. cbn in Hm. by apply elem_of_list_singleton in Hm.
Qed.
Lemma declared_file_nodes f m i : (∃ p h d nm decls, f = NFile p h d nm decls) → m ∈ subnodes f → i ∈ declared_names m →
  (Some m, NIdent i) ∈ file_nodes f.
Proof.
  intros Hf Hm Hi. destruct (below_file f m Hf Hm) as (decl & Hd & Hm').
  - destruct Hf as (p & h & d & nm & decls & ->). intros ->. by apply elem_of_nil in Hi.
  - intros ->. by apply elem_of_nil in Hi.
  - unfold file_nodes. apply elem_of_concat_map. exists decl. split; [done|]. apply with_parent_elem. right. exists m.
    split; [done|]. split; [done|]. destruct m; cbn in Hi |- *; try (by apply elem_of_nil in Hi).
    + apply elem_of_app. left. by apply elem_of_list_fmap_1.
    + apply elem_of_list_singleton in Hi as ->. left.
    + apply elem_of_app. left. by apply elem_of_list_fmap_1.
    + apply elem_of_list_singleton in Hi as ->. apply elem_of_app. right. left.
Qed.
Lemma unnamed_file_nodes f i pos : (∃ p h d nm decls, f = NFile p h d nm decls) → unnamed f i pos →
  ∃ par, (par, NIdent i) ∈ file_nodes f.
Proof.
  intros Hf (d & c & t & Hn & Ht & _). destruct (below_file f _ Hf Hn) as (decl & Hd & Hm').
  - by destruct Hf as (p & h & d' & nm & decls & ->).
  - done.
  - assert (Hs : NIdent i ∈ subnodes decl).
    { eapply subnodes_trans; [exact Hm'|]. eapply (subnodes_child _ t); [child_mem|]. by apply type_name_sub. }
    rewrite <-(with_parent_snd (Some f) decl) in Hs. apply elem_of_list_fmap in Hs as ([q m] & E & Hs). cbn in E. subst m.
    exists q. unfold file_nodes. apply elem_of_concat_map. by exists decl.
Qed.
Lemma declaring_parent P ti par i : id_name i ≠ "_" → (∀ o pp, ti_uses ti (id_ptr i) = Some o → o_kind o ≠ OPkgName pp) →
  i ∈ declared_names par → visible P ti (Some par) i.
Proof. intros H1 H2 H3. split; [done|]. split; [done|]. destruct par; try done; by apply elem_of_nil in H3. Qed.

(** C75: a symbol described in the document of a file is defined in it, unless its name is blank or it is that of an
    unnamed field, parameter, result or embedded element at whose position go/types records no definition. *)
Theorem C75_described_defined_partial : ∀ P msgs p f ti d info,
  indexed P msgs → p ∈ pr_pkgs P → f ∈ p_syntax p → p_info p = Some ti → (∀ f', f' ∈ p_syntax p → names_recorded P ti f') →
  document_of (pr_pkgs P) (documents msgs) p f d → info ∈ d_symbols d →
  (∃ o, o ∈ d_occs d ∧ is_def o ∧ oc_symbol o = i_symbol info) ∨
  i_display_name info = "_" ∨
  (∃ f' i pos, f' ∈ p_syntax p ∧ unnamed f' i pos ∧ id_name i = i_display_name info ∧
    (pos ≠ id_pos i ∨ ti_defs ti (id_ptr i) = None)).
Proof.
  intros P msgs p f ti d info
    (digest & objstr & mo & root & version & impl & ie & po & ao & po2 & skip & meta & w & Hix & Hmo & H1 & H2 & H3 & Hic & Hrun)
    Hp Hf Hti Hnr Hdoc Hinfo.
  destruct (success digest (pr_env P) (pr_objs P) (pr_fs P) (pr_heap P) objstr mo root version (pr_all P) (pr_proj P) (pr_pkgs P) impl ie po ao po2 skip meta w Hix Hmo H1 H2 H3 Hic msgs Hrun)
    as (ds & exts & g0 & g & kk & -> & Htab & _ & Hst & Hds).
  rewrite documents_msgs in Hdoc. destruct Hdoc as (n & Hi & Hdn).
  pose proof (Forall2_lookup_lr _ _ _ _ _ _ Hds Hi Hdn) as Hd. cbn in Hd.
  destruct Hd as (ti' & tbl & st & sym & name & torder & lorder & Hti' & Hname & Hg' & Hsym & Hv & Hto & Hlo & ->).
  assert (ti' = ti) as -> by congruence.
  destruct (tpj_info _ _ _ _ (ix_typed _ _ _ _ _ _ Hix) p f Hp Hf) as (ti' & name' & Hti2 & Htf & Hdi & _).
  assert (ti' = ti) as -> by congruence. clear Hti' Hti2.
  pose proof (lk_answers (pr_env P) _ root version g _ _ _ _ Htf) as Ha.
  destruct (visited_occs _ _ _ _ _ _ _ _ _ _ _ _ _ Htf Ha st Hv) as (Hnd & Ho & Hinv).
  cbn [to_document d_symbols d_occs] in Hinfo |- *. rewrite Ho. apply elem_of_app in Hinfo as [Hinfo|Hinfo].
  2: { (* a local *)
    left. apply elem_of_list_fmap in Hinfo as ([pz l] & -> & He). rewrite Hlo in He. apply elem_of_map_to_list in He.
    rewrite (iv_locals _ _ _ _ _ _ _ Hinv) in He. destruct (index_of pz _) as [q|] eqn:Eq; [|done].
    destruct (_ !! q) as [[pz' o]|] eqn:El; [|done]. injection He as <-.
    cbn [local_info i_symbol l_symbol].
    assert (Hsplit : ∀ l before, omap (local_def g p ti tbl) l !! q = Some (pz', o) →
      ∃ oc, oc ∈ nodes_occs g (pr_fs P) p ti tbl (imports_of (pr_heap P) p) (lk (pr_env P) root version g) before l ∧ is_def oc ∧ oc_symbol oc = local_name (length before + q)).
    { clear. intros l. revert q. induction l as [|e l IH]; intros q before H; [done|]. cbn in H.
      cbn [nodes_occs]. destruct (local_def g p ti tbl e) as [[a b]|] eqn:E; cbn [option_list].
      - destruct q as [|q].
        + destruct (ldef_occ g (pr_fs P) p ti tbl (imports_of (pr_heap P) p) (lk (pr_env P) root version g) before e a b E) as (i & encl & _ & Hin).
          eexists. split; [apply elem_of_app; left; exact Hin|]. split; [done|]. cbn. f_equal. lia.
        + destruct (IH q (before ++ [(a, b)])) as (oc & H1 & H2 & H3); [exact H|]. exists oc. split; [apply elem_of_app; by right|].
          split; [done|]. rewrite H3, app_length. cbn. f_equal. lia.
      - rewrite List.app_nil_r. destruct (IH q before H) as (oc & H1 & H2 & H3). exists oc. split; [apply elem_of_app; by right|done]. }
    destruct (Hsplit (file_nodes f) [] El) as (oc & Hoc & Hdef & Hs). exists oc. split; [by right|]. split; [done|]. exact Hs. }
  apply elem_of_list_fmap in Hinfo as ([pos y] & -> & Hr). unfold symbols_for_file in Hr. apply elem_of_list_filter in Hr as [Hfile Hr].
  cbn in Hfile |- *. rewrite Hto in Hr. apply elem_of_map_to_list in Hr.
  destruct (tk_proj _ _ _ _ _ _ _ Htab p Hp) as (tbl0 & Hg0 & Ht).
  destruct (same_tables_lookup _ _ _ _ _ Hst Hg0) as (tbl' & Hg1 & Hsame). assert (tbl' = tbl) as -> by congruence.
  specialize (Hsame pos). rewrite Hr in Hsame. destruct (tbl0 !! pos) as [y0|] eqn:E0; [|done].
  destruct Hsame as (Hs1 & _ & _ & Hs4 & _).
  unfold pass1_table in Ht. destruct (p_syntax p) as [|first rest] eqn:Hsy; [by apply elem_of_nil in Hf|]. rewrite <-Hsy in Hf, Hnr |- *.
  rewrite Hti in Ht. destruct Ht as (tbl1 & m & Hvp & Hm & ->).
  assert (Hcases : tbl1 !! pos = Some y0 ∨ i_symbol y0 = package_symbol m (p_path p)).
  { unfold pset in E0. destruct (tbl1 !! id_pos (file_ident first)) as [z|]; [destruct (String.eqb _ _)|]; [by left| |];
    rewrite lookup_insert_Some in E0; (destruct E0 as [[_ <-]|[_ E0]]; [by right|by left]). }
  destruct Hcases as [Ht1|Hpk].
  2: { (* the package *)
    left. eexists. split; [left|]. split; [done|]. cbn. rewrite <-Hs1, Hpk. rewrite <-(proj1 Hst) in Hsym.
    destruct (ix_order _ _ _ _ _ _ Hix) as [Hl0 Hin]. destruct (Hin _ Hp) as (q & Hq & Hh).
    destruct (ix_loaded _ _ _ _ _ _ Hix) as (Hka & Hkp & Hsm).
    destruct (Hsm _ _ _ Hq Hh) as (q2 & p2' & A1 & A2 & A3).
    rewrite (tk_syms _ _ _ _ _ _ _ Htab _ _ _ m A1 A2) in Hsym by congruence. by injection Hsym. }
  unfold visit_package_table in Hvp. rewrite (res_fold_put ti (pr_env P) p m) in Hvp by done. injection Hvp as <-.
  apply foldl_put_info in Ht1 as [Ht1|(e & He & Hep & ->)]; [by rewrite lookup_empty in Ht1|].
  destruct (package_events_origin _ _ _ _ _ He) as (f' & Hf' & Hor). cbn [event_info new_symbol_info i_display_name] in Hs4.
  assert (Hdn' : id_name (e_ident e) = i_display_name y) by (rewrite <-Hs4; done).
  (* an identifier of f' at this position, with a definition *)
  assert (Hfin : ∀ par, (par, NIdent (e_ident e)) ∈ file_nodes f' → id_pos (e_ident e) = pos → visible P ti par (e_ident e) →
    no_switch ti (e_ident e) → is_Some (ti_defs ti (id_ptr (e_ident e))) →
    ∃ o, o ∈ clause_occurrence (pr_fs P) sym f :: nodes_occs g (pr_fs P) p ti tbl (imports_of (pr_heap P) p) (lk (pr_env P) root version g) [] (file_nodes f) ∧
      is_def o ∧ oc_symbol o = i_symbol y).
  { intros par Hpar Hpos V S [def Hdef].
    assert (f' = f) as ->.
    { destruct (tpj_info _ _ _ _ (ix_typed _ _ _ _ _ _ Hix) p f' Hp Hf') as (ti' & name2 & _ & Htf' & _ & Hname2).
      assert (Hsub : NIdent (e_ident e) ∈ subnodes f') by (change (NIdent (e_ident e)) with (snd (par, NIdent (e_ident e))); by eapply file_nodes_sub).
      pose proof (ix_idents _ _ _ _ _ _ Hix p f' name2 _ Hp Hf' Hname2 Hsub) as Hfl. rewrite Hpos, Hfile in Hfl. injection Hfl as <-.
      assert ((p, f') ∈ files_in_order (pr_pkgs P)) as [n' Hi']%elem_of_list_lookup by by apply files_elem.
      pose proof (tpj_files _ _ _ _ (ix_typed _ _ _ _ _ _ Hix) _ _ _ _ _ _ _ Hi Hi' Hname Hname2) as <-.
      rewrite Hi in Hi'. by injection Hi'. }
    assert (Hsub : NIdent (e_ident e) ∈ subnodes f) by (change (NIdent (e_ident e)) with (snd (par, NIdent (e_ident e))); by eapply file_nodes_sub).
    apply elem_of_list_split in Hpar as (a1 & b1 & E1).
    eexists. split; [right; rewrite E1; apply nsoccs_elem; eexists a1, _, b1; split; [done|]|].
    - eapply (def_occ g (pr_fs P) p ti tbl (imports_of (pr_heap P) p) (lk (pr_env P) root version g)).
      + exact (visible_plain P digest g0 g ti par _ (ix_loaded _ _ _ _ _ _ Hix) Htab Hst V).
      + by apply no_switch_none.
      + exact Hdef.
      + unfold registered. rewrite (proj1 Hdi _ _ Hsub Hdef), Hpos, Hr. done.
    - done. }
  destruct (tpj_info _ _ _ _ (ix_typed _ _ _ _ _ _ Hix) p f' Hp Hf') as (ti' & name2 & Hti2 & Htf' & _).
  assert (ti' = ti) as -> by congruence.
  pose proof (wff_file _ _ _ _ (tf_wf _ _ _ _ _ Htf')) as Hnf.
  destruct (decide (id_name (e_ident e) = "_")) as [Hb|Hb]; [right; left; congruence|].
  destruct Hor as [(dm & Hdm & Hdi' & Hpos)|Hun].
  - left. destruct (nr_names _ _ _ (Hnr f' Hf') dm _ Hdm Hdi' Hb) as [Hdef S].
    pose proof (declared_file_nodes _ _ _ Hnf Hdm Hdi') as Hfn.
    eapply Hfin; [exact Hfn|congruence| |exact S|exact Hdef].
    apply declaring_parent; [done| |done]. intros o pp Hu Hk.
    destruct (wff_qual _ _ _ _ (tf_wf _ _ _ _ _ Htf') _ _ _ _ Hfn Hu Hk) as [(r & pz & l & [= ->])|(s & [= ->] & _)]; by apply elem_of_nil in Hdi'.
  - destruct (decide (e_pos e = id_pos (e_ident e))) as [Epos|Epos]; [|right; right; eauto 10].
    destruct (ti_defs ti (id_ptr (e_ident e))) as [def|] eqn:Edef; [|right; right; eauto 10].
    left. destruct (unnamed_file_nodes _ _ _ Hnf Hun) as (par & Hpar). rewrite Epos in Hun.
    destruct (nr_unnamed _ _ _ (Hnr f' Hf') par _ Hpar Hun Hb) as [V S]; [by rewrite Edef|].
    eapply Hfin; [exact Hpar|congruence|exact V|exact S|]. done.
Qed.
Print Assumptions C75_described_defined_partial.

(** Every unnamed parameter, result or embedded element in the type or initial value of a package-level variable is
    described, whether or not it defines anything: the names of the parameter types of function literals become
    symbols of their own (C75_unnamed_refuted). *)
Theorem C75_unnamed_described : ∀ digest P msgs p f ti ds i,
  indexed_with digest P msgs → p ∈ pr_pkgs P → f ∈ p_syntax p → p_info p = Some ti →
  wf_pkg_pos p → pkg_common_value_types p → value_member (pr_fs P) f ds [] i → (0 < id_pos i)%Z → NIdent i ∈ subnodes f →
  ∃ m, p_module p = Some m ∧ describes P msgs p f (anon_symbol digest (p_path p) m ds [] (id_name i)).
Proof.
  intros digest P msgs p f ti ds i Hx Hp Hf Hti Hwf Hcv Hm Hpos Hsub.
  assert (Hmod : ∃ m, p_module p = Some m).
  { destruct Hx as (objstr & mo & root & version & impl & ie & po & ao & po2 & skip & meta & w & Hix & _).
    eapply project_module; [exact Hix|exact Hp]. }
  destruct Hmod as [m Hmod]. exists m. split; [done|].
  eapply (registered_described digest P msgs Hx p f ti i _ Hp Hf Hti Hwf); [|done| |done].
  - destruct Hm as (p0 & h & d & nm & decls & q & tok & doc & specs & sd & sc & names & t & vs & fields & -> & Hdecl & Htok & Hspec & Hr & Hm).
    exists p0, h, d, nm, decls, (NGenDecl q tok doc specs). split; [done|]. split; [done|].
    up (NValueSpec sd sc names t vs). eapply reaches_poss; [done|]. by eapply member_poss.
  - intros ti' tbl Hti' Hv. destruct (C52_value_members digest ti' (pr_fs P) (pr_env P) p tbl f ds [] [] i Hwf Hcv Hf Hm) as (m' & info & Hm' & Hl & Hs); [constructor|done|done|].
    exists info. split; [done|]. congruence.
Qed.
Print Assumptions C75_unnamed_described.
