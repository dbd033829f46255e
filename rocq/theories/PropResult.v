(** C68: methods of the interface literals in the results of package-level functions and methods. *)
From Coq Require Import Ascii String.
From stdpp Require Import prelude strings gmap sorting.
From Verif Require Import GoStr Scip GoTypes Packages Symbols Document Lookup Pass1 Pass2 Paths
  Loader Index Ast SpecSymbol SpecDecl SpecLookup SpecOcc SpecIndex
  P_Symbols P_Pass1 P_Link P_Lookup P_Pass2 P_Occ P_Scope P_Index P_Doc PropSymbols PropDecl PropOcc PropIndex PropAnon PropCross ExDecl ExOcc ExIndex ExCross PropNav PropLocal ExLocal PropMember.
Open Scope string_scope.
Open Scope list_scope.

(** *** Specification *)
(** types made of other types, and lists of them *)
Definition composite (n : node) : bool :=
  match n with
  | NField _ _ _ _ | NFieldList _ | NStructType _ _ _ | NMapType _ _ _ | NArrayType _ _ _ | NChanType _ _ | NStarExpr _ _
  | NParenExpr _ _ | NUnaryExpr _ _ | NBinaryExpr _ _ | NIndexExpr _ _ | NIndexListExpr _ _ | NSelectorExpr _ _ => true
  | _ => false
  end.
(** [result n methods]: n is or contains an interface literal with these methods; of function types, the results count *)
Inductive result : node → list node → Prop :=
| res_here r p methods : result (NInterfaceType r p (NFieldList methods)) methods
| res_func p tps ps rs methods : result rs methods → result (NFuncType p tps ps rs) methods
| res_part n c methods : composite n = true → c ∈ node_children n → result c methods → result n methods.
(** the receiver's type name *)
Inductive receiver : option node → list descriptor → Prop :=
| rcv_none : receiver None []
| rcv_some fd fc names t rest i : recv_ident t i → receiver (Some (NFieldList (NField fd fc names t :: rest))) [Desc (id_name i) Type_].
(** a file declares method i in an interface literal in the results of function F (of the receiver's type) *)
Definition result_method (f : node) (ds : list descriptor) (i : Ast.ident) : Prop :=
  ∃ a h d nm decls doc q e recv F q' tps ps rs body rd methods fd fc names t,
    f = NFile a h d nm decls ∧ NFuncDecl doc q e recv F (NFuncType q' tps ps rs) body ∈ decls ∧
    receiver recv rd ∧ ds = rd ++ [Desc "func" Scip.Meta; Desc (id_name F) Scip.Meta] ∧
    result rs methods ∧ NField fd fc names t ∈ methods ∧ i ∈ names.
(** its symbol: the function's path, then the method *)
Definition result_symbol (path : string) (m : gmodule) (ds : list descriptor) (name : string) : string :=
  format_symbol (Sym "scip-go" (SPkg "gomod" (m_path m) (m_version m)) (Desc path Namespace :: ds ++ [Desc name Method])).

(** *** Proofs *)
Lemma fv_part n sc e : composite n = true → e ∈ fv sc n ↔ ∃ c, c ∈ node_children n ∧ e ∈ fv sc c.
Proof.
  assert (Hl : ∀ l, e ∈ fvl sc l ↔ ∃ x, x ∈ l ∧ e ∈ fv sc x).
  { intros l. split; [apply fvl_ev|]. intros (x & Hx & He). induction l as [|y l IH]; [by apply elem_of_nil in Hx|].
    cbn. apply elem_of_app. apply elem_of_cons in Hx as [->|Hx]; [by left|right; auto]. }
  assert (H1 : ∀ x, e ∈ fv sc x ↔ ∃ c, c ∈ [x] ∧ e ∈ fv sc c).
  { intros x. split; [intros; eexists; split; [left|done]|by intros (c & ->%elem_of_list_singleton & ?)]. }
  assert (H2 : ∀ x y, e ∈ fv sc x ++ fv sc y ↔ ∃ c, c ∈ [x; y] ∧ e ∈ fv sc c).
  { intros x y. rewrite elem_of_app. split.
    - intros [H|H]; eexists; (split; [|exact H]); [left|right; left].
    - intros (c & [->| ->%elem_of_list_singleton]%elem_of_cons & ?); [by left|by right]. }
  intros Hc. destruct n; try discriminate Hc; cbn [fv node_children]; fold (fvl sc).
  - split; [intros H; eexists; split; [apply elem_of_app; right; left|exact H]|].
    intros (c & [Hc'|Hc']%elem_of_app & He).
    + apply elem_of_list_fmap in Hc' as (j & -> & _). by apply elem_of_nil in He.
    + by apply elem_of_list_singleton in Hc' as ->.
  - apply Hl.
  - apply H1.
  - apply H2.
  - destruct len as [x|]; cbn [opt_node app]; [apply H2|apply H1].
  - apply H1.
  - apply H1.
  - apply H1.
  - apply H1.
  - apply H2.
  - apply H2.
  - rewrite elem_of_app, Hl. split.
    + intros [H|(y & Hy & H)]; eexists; (split; [|exact H]); [left|by right].
    + intros (c & [->|Hc']%elem_of_cons & ?); [by left|right; eauto].
  - split; [intros H; eexists; split; [left|exact H]|].
    intros (c & [->| ->%elem_of_list_singleton]%elem_of_cons & He); [done|by apply elem_of_nil in He].
Qed.
Lemma result_poss n methods p : result n methods → p ∈ poss (NFieldList methods) → p ∈ poss n.
Proof.
  induction 1 as [r q methods|q tps ps rs methods _ IH|n c methods _ Hc _ IH]; intros Hp.
  - by up (NFieldList methods).
  - up rs. auto.
  - eapply poss_child; [exact Hc|]. auto.
Qed.
Lemma method_poss methods fd fc names t i : NField fd fc names t ∈ methods → i ∈ names → id_pos i ∈ poss (NFieldList methods).
Proof. intros Hf Hi. up (NField fd fc names t). up (NIdent i). apply poss_ident. Qed.

Lemma result_in n methods fd fc names t i sc : result n methods → NField fd fc names t ∈ methods → i ∈ names →
  ∃ e, e ∈ fv sc n ∧ e_pos e = id_pos i.
Proof.
  induction 1 as [r q methods|q tps ps rs methods _ IH|n c methods Hn Hc _ IH]; intros Hf Hi.
  - eexists. split; [|shelve]. cbn [fv iface_method_events]. apply elem_of_concat_map. eexists. split; [exact Hf|].
    apply elem_of_list_fmap. exists i. split; [reflexivity|done]. Unshelve. done.
  - by apply IH.
  - destruct (IH Hf Hi) as (e & He & Hp). exists e. split; [|done]. apply fv_part; [done|]. by exists c.
Qed.
Lemma result_unique n methods fd fc names t i sc e : result n methods → NField fd fc names t ∈ methods → i ∈ names →
  wf_pos n → (0 < id_pos i)%Z → e ∈ fv sc n → e_pos e = id_pos i → e_descs e = sc ++ [Desc (id_name i) Method].
Proof.
  induction 1 as [r q methods|q tps ps rs methods Hr IH|n c methods Hn Hc Hr IH]; intros Hf Hi Hwf Hpos He Ep.
  - cbn [fv iface_method_events] in He. apply elem_of_concat_map in He as (f & Hf' & He).
    assert (Hwl : wf_pos (NFieldList methods)) by (eapply wf_pos_child; [|exact Hwf]; left).
    assert (Hif : id_pos i ∈ poss (NField fd fc names t)) by (up (NIdent i); apply poss_ident).
    assert (f = NField fd fc names t) as ->.
    { eapply (wf_pos_children (NFieldList methods)); [done|done|done|exact Hpos| |done].
      destruct f; try (by apply elem_of_nil in He). apply elem_of_list_fmap in He as (j & -> & Hj). cbn in Ep. rewrite <- Ep. up (NIdent j). apply poss_ident. }
    apply elem_of_list_fmap in He as (j & -> & Hj). cbn in Ep |- *.
    assert (NIdent j = NIdent i) as [= ->]; [|done].
    eapply (wf_pos_children (NField fd fc names t)); [eapply wf_pos_child; [|exact Hwl]; exact Hf|apply elem_of_app; left; apply elem_of_list_fmap; by exists j|apply elem_of_app; left; apply elem_of_list_fmap; by exists i|exact Hpos| |apply poss_ident].
    rewrite <- Ep. apply poss_ident.
  - cbn [fv] in He. apply IH; [done|done| |done|done|done]. eapply wf_pos_child; [|exact Hwf]. child_mem.
  - apply fv_part in He as (c' & Hc' & He); [|done].
    assert (c' = c) as ->.
    { eapply (wf_pos_children n); [done|done|done|exact Hpos| |].
      - rewrite <- Ep. by eapply fv_poss.
      - eapply result_poss; [exact Hr|]. by eapply method_poss. }
    apply IH; [done|done| |done|done|done]. by eapply wf_pos_child.
Qed.

Lemma base_type_recv t i : recv_ident t i → base_type_name t = Some (id_name i).
Proof. by induction 1. Qed.
Lemma receiver_scope recv rd sc : receiver recv rd →
  match receiver_type_name recv with Some r => sc ++ [Desc r Type_] | None => sc end = sc ++ rd.
Proof. destruct 1 as [|fd fc names t rest i Hi]; cbn; [by rewrite List.app_nil_r|]. by rewrite (base_type_recv _ _ Hi). Qed.

(** The declaration pass registers such a method under the function's path. *)
Theorem C68_result_methods : ∀ digest ti fs env pkg tbl f ds i,
  wf_pkg_pos pkg → f ∈ p_syntax pkg → result_method f ds i → (0 < id_pos i)%Z →
  visit_package_table digest ti fs env pkg = Ok tbl →
  ∃ m info, p_module pkg = Some m ∧ tbl !! id_pos i = Some info ∧ i_symbol info = result_symbol (p_path pkg) m ds (id_name i).
Proof.
  intros digest ti fs env pkg tbl F0 ds i [Hwf Hsep] HF (a & h & d & nm & decls & doc & q & e & recv & F & q' & tps & ps & rs & body & rd & methods & fd & fc & names & t & -> & Hdecl & Hrd & -> & Hr & Hf & Hi) Hp Htbl.
  set (ft := NFuncType q' tps ps rs) in *. set (decl := NFuncDecl doc q e recv F ft body) in *.
  assert (Hirs : id_pos i ∈ poss rs) by (eapply result_poss; [exact Hr|]; by eapply method_poss).
  assert (Hift : id_pos i ∈ poss ft) by (unfold ft; up rs; done).
  assert (Hcft : ft ∈ node_children decl) by (unfold decl; cbn [node_children]; apply elem_of_app; right; right; left).
  assert (Hi' : id_pos i ∈ poss decl) by (eapply (poss_child decl ft); done).
  assert (Hwfd : wf_pos decl) by (eapply wf_pos_child; [|exact (Hwf _ HF)]; child_mem).
  assert (Hwft : wf_pos ft) by by eapply wf_pos_child.
  assert (Hwrs : wf_pos rs) by (eapply wf_pos_child; [|exact Hwft]; unfold ft; child_mem).
  set (sc := new_scope (p_path pkg) ++ rd ++ [Desc "func" Scip.Meta; Desc (id_name F) Scip.Meta]).
  assert (Hev : ∀ ev, ev ∈ decl_all digest ti fs (p_path pkg) decl ↔ ev = Ev ((new_scope (p_path pkg) ++ rd) ++ [Desc (id_name F) Method]) (Some decl) F (id_pos F) ∨ ev ∈ fv sc rs).
  { intros ev. unfold decl_all, decl. cbn [tv app decl_events fv]. rewrite (receiver_scope _ _ _ Hrd).
    rewrite elem_of_cons. unfold ft. cbn [fv]. unfold sc. rewrite List.app_assoc. reflexivity. }
  assert (Hu : ∀ ev, ev ∈ package_events digest ti fs pkg → e_pos ev = id_pos i → e_descs ev = sc ++ [Desc (id_name i) Method]).
  { intros ev He Hpos. apply elem_of_concat_map in He as (f' & Hf' & He).
    assert (f' = NFile a h d nm decls) as ->.
    { eapply pairwise_sep_eq; [exact Hsep|done|done|exact Hp| |].
      - rewrite <- Hpos. by eapply file_events_poss.
      - up decl. done. }
    apply file_events_elem in He as (decl' & Hdecl' & He).
    assert (decl' = decl) as ->.
    { eapply (wf_pos_children (NFile a h d nm decls)); [by apply Hwf|child_mem|child_mem|exact Hp| |done].
      rewrite <- Hpos. apply elem_of_app in He as [He|He]; [by eapply tv_poss|].
      destruct decl'; try (by apply elem_of_nil in He).
      - destruct tok; try (by apply elem_of_nil in He); by eapply vv_poss.
      - by eapply fv_poss. }
    apply Hev in He as [->|He].
    - exfalso. cbn in Hpos. 
      eapply (wf_pos_split decl (opt_node recv ++ [NIdent F]) (ft :: opt_node body)); [exact Hwfd| | |left|exact Hp| |exact Hift].
      + cbn. by rewrite <- List.app_assoc.
      + rewrite elem_of_app. right. left.
      + rewrite <- Hpos. apply poss_ident.
    - by eapply result_unique. }
  assert (He0 : ∃ ev, ev ∈ package_events digest ti fs pkg ∧ e_pos ev = id_pos i).
  { destruct (result_in rs methods fd fc names t i sc Hr Hf Hi) as (ev & He & Hpos). exists ev. split; [|done].
    apply elem_of_concat_map. eexists. split; [exact HF|]. apply file_events_elem. exists decl. split; [done|]. apply Hev. by right. }
  destruct He0 as (e0 & He0 & Hp0).
  unfold visit_package_table in Htbl. destruct (p_module pkg) as [m|] eqn:Hmod.
  - rewrite (res_fold_put ti env pkg m) in Htbl by done. injection Htbl as <-.
    destruct (foldl_put_first ti env m (package_events digest ti fs pkg) ∅ (id_pos i)) as (ev & He & Hpos & Hl).
    + apply lookup_empty.
    + eauto.
    + intros x y Hx Hy Hpx Hpy. unfold event_info. cbn. by rewrite (Hu x), (Hu y).
    + exists m, (event_info ti env m ev). split; [done|]. split; [done|]. unfold event_info, result_symbol. cbn. rewrite Hu by done.
      unfold sc, new_scope. cbn [app]. by rewrite <- List.app_assoc.
  - apply res_fold_no_module in Htbl; [|done]. rewrite Htbl in He0. by apply elem_of_nil in He0.
Qed.
Print Assumptions C68_result_methods.

(** C68: the method is described in its file's document, its name is a definition, and every use of it in the
    project, in any file, is a reference to it. *)
Theorem C68_result_methods_navigate_partial : ∀ digest P msgs p f ti ds i par def,
  indexed_with digest P msgs → p ∈ pr_pkgs P → f ∈ p_syntax p → p_info p = Some ti → wf_pkg_pos p →
  result_method f ds i → (0 < id_pos i)%Z → (par, NIdent i) ∈ file_nodes f → visible P ti par i → no_switch ti i →
  ti_defs ti (id_ptr i) = Some def → p_path p ≠ "unsafe" →
  ∃ m, p_module p = Some m ∧
    let s := result_symbol (p_path p) m ds (id_name i) in
    describes P msgs p f s ∧ defines P msgs p f i s ∧
    (∀ p2 f2 i2, use_of P p (id_pos i) p2 f2 i2 → refers P msgs p2 f2 i2 s).
Proof.
  intros digest P msgs p f ti ds i par def Hx Hp Hf Hti Hwf Hm Hpos Hnode Hvis S Hdef Hun.
  assert (Hmod : ∃ m, p_module p = Some m).
  { destruct Hx as (objstr & mo & root & version & impl & ie & po & ao & po2 & skip & meta & w & Hix & _).
    eapply project_module; [exact Hix|exact Hp]. }
  destruct Hmod as [m Hmod].
  assert (Hreg : registers digest P p i (result_symbol (p_path p) m ds (id_name i))).
  { intros ti' tbl Hti' Hv. assert (ti' = ti) as -> by congruence.
    destruct (C68_result_methods digest ti (pr_fs P) (pr_env P) p tbl f ds i Hwf Hf Hm Hpos Hv) as (m' & info & Hm' & Hl & Hs).
    assert (m' = m) as -> by congruence. by exists info. }
  assert (Hb : below_decl f i).
  { destruct Hm as (a & h & d & nm & decls & doc & q & e & recv & F & q' & tps & ps & rs & body & rd & methods & fd & fc & names & t & -> & Hdecl & Hrd & -> & Hr & Hf' & Hi).
    eexists _, _, _, _, _, _. split; [reflexivity|]. split; [exact Hdecl|].
    apply (poss_child _ (NFuncType q' tps ps rs)); [cbn [node_children]; apply elem_of_app; right; right; left|].
    up rs. eapply result_poss; [exact Hr|]. by eapply method_poss. }
  assert (Hsub : NIdent i ∈ subnodes f).
  { destruct Hx as (objstr & mo & root & version & impl & ie & po & ao & po2 & skip & meta & w & Hix & _).
    destruct (tpj_info _ _ _ _ (ix_typed _ _ _ _ _ _ Hix) p f Hp Hf) as (ti' & name' & Hti2 & Htf & Hdi & _).
    change (NIdent i) with (snd (par, NIdent i)). by eapply file_nodes_sub. }
  exists m. split; [done|]. cbv zeta. split; [|split].
  - eapply registered_described; [exact Hx|exact Hp|exact Hf|exact Hti|exact Hwf|exact Hb|exact Hpos|exact Hreg|exact Hsub].
  - eapply registered_defined; [exact Hx|exact Hp|exact Hf|exact Hti|exact Hwf|exact Hb|exact Hpos|exact Hreg|exact Hnode|exact Hvis|done|exact Hdef].
  - intros p2 f2 i2 Huse. eapply registered_referred; [exact Hx|exact Hp|exact Hf|exact Hti|exact Hwf|exact Hb|exact Hpos|exact Hreg|done|done].
Qed.
Print Assumptions C68_result_methods_navigate_partial.

(** Symbols of methods in results tell packages, functions, receivers and method names apart, and no package-level
    declaration has such a symbol. *)
Theorem C68_distinct : ∀ path path' m m' f f' ds ds' i i' k, clean_module m → clean_module m' →
  result_method f ds i → result_method f' ds' i' →
  (result_symbol path m ds (id_name i) = result_symbol path' m' ds' (id_name i') →
   path = path' ∧ ds = ds' ∧ id_name i = id_name i') ∧
  result_symbol path m ds (id_name i) ≠ key_symbol path' m' k.
Proof.
  intros path path' m m' f f' ds ds' i i' k Hc Hc' (a & h & d & nm & decls & doc & q & e & recv & F & q' & tps & ps & rs & body & rd & methods & fd & fc & names & t & _ & _ & Hrd & -> & _) _.
  unfold result_symbol, key_symbol. split; intros E; (apply format_symbol_inj in E; [|by apply clean_module_symbol..]).
  - unfold normal_symbol in E. cbn in E. injection E as _ _ -> E. apply app_inj_tail in E as [-> [= ->]]. done.
  - unfold normal_symbol in E. cbn in E. assert (E' := f_equal s_descriptors E). cbn in E'.
    destruct Hrd as [|? ? ? ? ? r _]; destruct k; discriminate E'.
Qed.
Print Assumptions C68_distinct.
