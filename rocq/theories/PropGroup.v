(** C17, converse: what a spec with an uncommon type does to the later variables of its group. *)
From Coq Require Import Ascii String.
From stdpp Require Import prelude strings gmap.
From Verif Require Import GoStr Scip GoTypes Ast Packages Symbols Document Lookup Pass1
  SpecSymbol SpecDecl P_Symbols P_Pass1 P_Doc P_Link ExDecl.
Open Scope string_scope.
Open Scope list_scope.

Section Grow.
  Context (digest : string → string) (ti : tinfo) (fs : fset).
  Notation vv := (vv digest ti fs).
  Notation vvl := (vvl digest ti fs).
  Notation vvnames := (vvnames digest ti fs).
  Definition grows (st st' : vstate) : Prop := ∃ k, v_scope st' = v_scope st ++ k.
  Lemma grows_refl st : grows st st.
  Proof. exists []. by rewrite List.app_nil_r. Qed.
  Lemma grows_trans a b c : grows a b → grows b c → grows a c.
  Proof. intros [k E] [k' E']. exists (k ++ k'). by rewrite E', E, List.app_assoc. Qed.
  Lemma grows_pop st d st' : grows (v_push st d) st' → grows st (v_pop st').
  Proof.
    intros [k E]. cbn in E. unfold grows. cbn. unfold scope_pop. rewrite E.
    destruct k as [|x k _] using rev_ind.
    - exists []. rewrite !List.app_nil_r. apply removelast_snoc.
    - exists ([d] ++ k). rewrite List.app_assoc, removelast_snoc. by rewrite <- List.app_assoc.
  Qed.
  Lemma vvl_grows l : Forall (λ x, ∀ m st, grows st (vv m x st).1) l → ∀ st, grows st (vvl l st).1.
  Proof.
    induction 1 as [|x l Hx HF IH]; intros st; [apply grows_refl|]. cbn. rewrite seq_st.
    eapply grows_trans; [apply Hx|apply IH].
  Qed.
  Lemma vvnames_grows n t l : (∀ st, grows st (vv ANON t st).1) → ∀ st, grows st (vvnames n t l st).1.
  Proof.
    intros Ht. induction l as [|i l IH]; intros st; cbn [P_Pass1.vvnames]; [apply grows_refl|].
    rewrite seq_st. eapply grows_trans; [|apply IH]. specialize (Ht st). by destruct (vv ANON t st).
  Qed.
  Ltac tr := eapply grows_trans; [|].
  Lemma vv_grows n : ∀ m st, grows st (vv m n st).1.
  Proof.
    induction n using node_ind'; intros md st; destruct md; cbn [Pass1.vv]; fold vvl; try apply grows_refl.
    - destruct ns as [|i0 ns0]; [apply grows_refl|].
      change (grows st (vvnames (NField d c (i0 :: ns0) n) n (i0 :: ns0) st).1). apply vvnames_grows. intros. apply IHn.
    - by apply vvl_grows.
    - apply IHn.
    - destruct (String.eqb _ _); [apply grows_refl|]. rewrite anon_st. eapply grows_pop, IHn.
    - apply IHn.
    - destruct (String.eqb _ _); [apply grows_refl|]. rewrite anon_st. eapply grows_pop, IHn.
    - rewrite !seq_st. tr; [apply IHn1|]. tr; [apply IHn2|]. apply IHn3.
    - rewrite !seq_st. tr; [apply IHn1|]. apply IHn2.
    - rewrite !seq_st. tr; [apply IHn1|]. apply IHn2.
    - rewrite !seq_st. tr; [|apply IHn]. destruct l as [x|]; [apply H|apply grows_refl].
    - apply IHn.
    - apply IHn.
    - apply IHn.
    - apply IHn.
    - apply IHn.
    - apply IHn.
    - rewrite !seq_st. tr; [apply IHn1|]. apply IHn2.
    - rewrite !seq_st. tr; [apply IHn1|]. apply IHn2.
    - rewrite !seq_st. tr; [apply IHn|]. by apply vvl_grows.
    - apply IHn.
    - rewrite !seq_st. tr; [apply IHn1|]. apply IHn2.
    - by apply vvl_grows.
    - rewrite !seq_st. tr; [apply IHn1|]. apply IHn2.
    - (* ValueSpec *)
      destruct ns as [|i0 ns0]; [apply grows_refl|].
      set (dd := Desc _ _). set (r := match t with Some _ => _ | None => _ end).
      assert (Hr : grows st r.1).
      { subst r. destruct t as [t|].
        - destruct (vtype_action_of t).
          + rewrite anon_st. eapply grows_pop. by apply vvl_grows.
          + rewrite seq_st, anon_st. eapply grows_pop. tr; [apply H|]. by apply vvl_grows.
          + by exists [dd].
        - rewrite anon_st. eapply grows_pop. by apply vvl_grows. }
      by destruct r.
    - destruct k; try apply grows_refl; apply (vvl_grows l H (VState _ (v_scope st))).
    - rewrite !seq_st.
      assert (G1 : ∀ st0, grows st0 (match r with Some x => vv WALK x st0 | None => (st0, []) end).1).
      { intros st0. destruct r as [x|]; [apply H|apply grows_refl]. }
      assert (G2 : ∀ st0, grows st0 (match b with Some x => vv WALK x st0 | None => (st0, []) end).1).
      { intros st0. destruct b as [x|]; [apply H0|apply grows_refl]. }
      tr; [apply G1|]. tr; [apply IHn|]. apply G2.
    - by apply vvl_grows.
    - by apply vvl_grows.
  Qed.
  Lemma vvl_grows_all l st : grows st (vvl l st).1.
  Proof. apply vvl_grows. apply Forall_forall. intros x _ m st'. apply vv_grows. Qed.

  Lemma uncommon_abort t : ¬ common_type_form t → vtype_action_of t = VAbort.
  Proof. intros H. by destruct t; try (destruct (H I)). Qed.
  Lemma vv_abort sd sc names t vs st : names ≠ [] → ¬ common_type_form t →
    v_scope (vv WALK (NValueSpec sd sc names (Some t) vs) st).1 = v_scope st ++ [Desc (spec_scope_name fs names) Scip.Meta].
  Proof. intros Hn Ht. cbn [Pass1.vv]. rewrite (uncommon_abort _ Ht). by destruct names. Qed.
  Lemma group_scope l sd sc names t vs st : NValueSpec sd sc names (Some t) vs ∈ l → names ≠ [] → ¬ common_type_form t →
    ∃ d k, v_scope (vvl l st).1 = v_scope st ++ d :: k.
  Proof.
    intros Hin Hn Ht. apply elem_of_list_split in Hin as (l1 & l2 & ->). rewrite vvl_app, seq_st. cbn [P_Pass1.vvl]. rewrite seq_st.
    destruct (vvl_grows_all l1 st) as [k1 E1].
    set (st1 := (vvl l1 st).1) in *. pose proof (vv_abort sd sc names t vs st1 Hn Ht) as E2.
    destruct (vvl_grows_all l2 (vv WALK (NValueSpec sd sc names (Some t) vs) st1).1) as [k2 E3].
    rewrite E3, E2, E1. rewrite <- !List.app_assoc. destruct k1 as [|d k1]; [by eexists _, _|by eexists d, _].
  Qed.
End Grow.

(** C17: every variable after a spec with a parenthesised (or otherwise uncommon) type in its group is recorded under
    a symbol other than its own. *)
Theorem C17_disturbed_refuted :
  ∀ digest ti fs env pkg tbl m i p h d nm decls q tok doc l1 sd sc names t vs l2 sd' sc' names' t' vs',
  wf_pkg_pos pkg → NFile p h d nm decls ∈ p_syntax pkg → tok = VAR ∨ tok = CONST →
  NGenDecl q tok doc (l1 ++ NValueSpec sd sc names t vs :: l2) ∈ decls → i ∈ names →
  (** a spec before that of i *)
  NValueSpec sd' sc' names' (Some t') vs' ∈ l1 → names' ≠ [] → ¬ common_type_form t' →
  (0 < id_pos i)%Z → visit_package_table digest ti fs env pkg = Ok tbl →
  p_module pkg = Some m → no_leading_space (m_path m) = true → no_leading_space (m_version m) = true →
  ∃ s, pget_symbol tbl (id_pos i) = Some s ∧ s ≠ key_symbol (p_path pkg) m (KeyValue (id_name i)).
Proof.
  intros digest ti fs env pkg tbl m i p h d nm decls q tok doc l1 sd sc names t vs l2 sd' sc' names' t' vs'
    [Hwf Hsep] HF Htok Hdecl Hi Hl1 Hn' Ht' Hp Htbl Hm Hm1 Hm2.
  set (spec := NValueSpec sd sc names t vs) in *. set (decl := NGenDecl q tok doc (l1 ++ spec :: l2)) in *.
  assert (Hspec : spec ∈ l1 ++ spec :: l2) by (apply elem_of_app; right; left).
  assert (His : id_pos i ∈ poss spec) by (unfold spec; up (NIdent i); apply poss_ident).
  assert (Hid : id_pos i ∈ poss decl) by (eapply (poss_child decl); [exact Hspec|done]).
  assert (Hwfd : wf_pos decl) by (eapply wf_pos_child; [|exact (Hwf _ HF)]; child_mem).
  assert (Hwfs : wf_pos spec) by (eapply wf_pos_child; [|exact Hwfd]; exact Hspec).
  set (st := (vvl digest ti fs l1 (VState (Some decl) (new_scope (p_path pkg)))).1).
  destruct (group_scope digest ti fs l1 sd' sc' names' t' vs' (VState (Some decl) (new_scope (p_path pkg))) Hl1 Hn' Ht') as (x & k & Est).
  change (v_scope st = new_scope (p_path pkg) ++ x :: k) in Est.
  assert (Hev : ∀ e, e ∈ (vvl digest ti fs (l1 ++ spec :: l2) (VState (Some decl) (new_scope (p_path pkg)))).2 →
    e ∈ decl_events digest ti fs (p_path pkg) decl).
  { intros e He. unfold decl. destruct Htok as [->| ->]; exact He. }
  assert (Hu : ∀ e, e ∈ package_events digest ti fs pkg → e_pos e = id_pos i →
    e_descs e = v_scope st ++ [Desc (id_name i) Term]).
  { intros e He Hpos. apply elem_of_concat_map in He as (f' & Hf' & He).
    assert (f' = NFile p h d nm decls) as ->.
    { eapply pairwise_sep_eq; [exact Hsep|done|done|exact Hp| |].
      - rewrite <- Hpos. by eapply file_events_poss.
      - up decl. done. }
    apply file_events_elem in He as (decl' & Hdecl' & He).
    assert (decl' = decl) as ->.
    { eapply (wf_pos_children (NFile p h d nm decls)); [by apply Hwf|child_mem|child_mem|exact Hp| |done].
      rewrite <- Hpos. apply elem_of_app in He as [He|He]; [by eapply tv_poss|].
      destruct decl'; try (by apply elem_of_nil in He).
      - destruct tok0; try (by apply elem_of_nil in He); by eapply vv_poss.
      - by eapply fv_poss. }
    unfold decl_all in He. apply elem_of_app in He as [He|He].
    { exfalso. unfold decl in He. cbn [Pass1.tv] in He. apply elem_of_concat_map in He as (s & Hs & He).
      assert (s = spec) as ->.
      { eapply (wf_pos_children decl); [done|exact Hs|exact Hspec|exact Hp| |done]. rewrite <- Hpos. by eapply tv_poss. }
      by apply elem_of_nil in He. }
    assert (He' : e ∈ (vvl digest ti fs (l1 ++ spec :: l2) (VState (Some decl) (new_scope (p_path pkg)))).2).
    { unfold decl in He. destruct Htok as [->| ->]; exact He. }
    apply (vvl_spec digest ti fs decl) in He'; [|done|done|by rewrite Hpos|by rewrite Hpos].
    change (e ∈ (vv digest ti fs WALK spec st).2) in He'. unfold spec in He'.
    apply vv_valuespec_ev in He' as [(j & Hj & ->)|[(t0 & st2 & -> & He')|(y & st2 & Hy & He')]].
    - cbn in Hpos |- *. assert (j = i) as ->; [|done]. eapply wf_pos_names; [exact Hwfs|reflexivity|done..].
    - exfalso. eapply (wf_pos_split (NValueSpec sd sc names (Some t0) vs));
        [done|reflexivity| | |exact Hp|apply poss_ident|].
      { by apply elem_of_list_fmap_1. } { left. } rewrite <- Hpos. by eapply vv_poss.
    - exfalso. eapply (wf_pos_split (NValueSpec sd sc names t vs));
        [done|reflexivity| | |exact Hp|apply poss_ident|].
      { by apply elem_of_list_fmap_1. } { apply elem_of_app. by right. }
      rewrite <- Hpos. by eapply vv_poss. }
  assert (He0 : ∃ e, e ∈ package_events digest ti fs pkg ∧ e_pos e = id_pos i).
  { apply (package_events_exists digest ti fs pkg i (KeyValue (id_name i)) decl).
    eexists. split; [exact HF|]. eexists _, _, _, _, _, decl. split; [done|]. split; [done|].
    eapply (dd_value q tok doc (l1 ++ spec :: l2) sd sc names t vs i); [done|exact Hspec|done]. }
  unfold visit_package_table in Htbl. rewrite (res_fold_put ti env pkg m) in Htbl by done. injection Htbl as <-.
  destruct (foldl_put_first ti env m (package_events digest ti fs pkg) ∅ (id_pos i)) as (e & He & Hpos & Hl).
  - apply lookup_empty.
  - exact He0.
  - intros a b Ha Hb Hpa Hpb. unfold event_info. cbn. by rewrite (Hu a), (Hu b).
  - unfold pget_symbol, pget. rewrite Hl. eexists. split; [reflexivity|]. cbn. rewrite (Hu e He Hpos), Est. unfold key_symbol, new_scope.
    intros E. apply format_symbol_inj in E; [|unfold clean_symbol; cbn; by rewrite Hm1, Hm2..].
    unfold normal_symbol in E. cbn in E. injection E as E1 E2. destruct k; discriminate.
Qed.
Print Assumptions C17_disturbed_refuted.
(** var ( a (int); b int ) *)
Example C17_disturbed_ex :
  let decl := NGenDecl 12 VAR "" ([NValueSpec "" "" [mk 1 "a" 18] (Some (NParenExpr 20 (NIdent (mk 2 "int" 21)))) []] ++
                [NValueSpec "" "" [mk 3 "b" 27] (Some (NIdent (mk 4 "int" 29))) []]) in
  let pkg := GPkg 1 "ex.org/p" "p" (Some p_mod) [] [NFile 1 false "" (mk 0 "p" 9) [decl]] None None in
  wf_pkg_pos pkg ∧ ¬ common_type_form (NParenExpr 20 (NIdent (mk 2 "int" 21))) ∧
  no_leading_space (m_path p_mod) = true ∧ ∃ tbl, visit_package_table p_digest p_ti p_fs p_env pkg = Ok tbl.
Proof.
  cbv zeta. split; [apply wf_pkgb_ok; vm_compute; reflexivity|]. split; [exact id|]. split; [reflexivity|].
  eexists. unfold visit_package_table. rewrite (res_fold_put p_ti p_env _ p_mod) by done. reflexivity.
Qed.
