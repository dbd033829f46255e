(** C63/C52: fields and parameters anywhere in the types and initial values of package-level variables. *)
From Coq Require Import Ascii String.
From stdpp Require Import prelude strings gmap sorting.
From Verif Require Import GoStr Scip GoTypes Packages Symbols Document Lookup Pass1 Pass2 Paths
  Loader Index Ast SpecSymbol SpecDecl SpecLookup SpecOcc SpecIndex
  P_Symbols P_Pass1 P_Link P_Lookup P_Pass2 P_Occ P_Scope P_Index P_Doc PropSymbols PropDecl PropOcc PropIndex PropAnon PropCross ExDecl ExOcc ExIndex ExCross PropNav PropLocal ExLocal PropMember.
Open Scope string_scope.
Open Scope list_scope.

(** *** Specification *)
(** the expressions, types and statements through which a declaration is searched *)
Definition plain (n : node) : bool :=
  match n with
  | NIdent _ | NField _ _ _ _ | NValueSpec _ _ _ _ _ | NGenDecl _ _ _ _ | NTypeSpec _ _ _ _ | NImportSpec _ _ _ _
  | NFuncDecl _ _ _ _ _ _ _ | NFile _ _ _ _ _ => false
  | _ => true
  end.
(** the name under which the parts of `names = ...` are filed: the variable, or the place when there are several *)
Inductive filed_under (fs : fset) : list Ast.ident → string → Prop :=
| fu_one x : filed_under fs [x] (id_name x)
| fu_many x y l : filed_under fs (x :: y :: l)
    ("inline-" +:+ show_Z (pos_line (fs_position fs (id_pos x))) +:+ "-" +:+ show_Z (pos_col (fs_position fs (id_pos x)))).
(** [reaches fs n ds fields]: the field or parameter list [fields] occurs in n: in an expression, in the struct or
    interface literal that is the declared type of a variable, or in the initial value of a variable; ds lists
    the variables on the way *)
Inductive reaches (fs : fset) : node → list descriptor → list node → Prop :=
| rc_here fields : reaches fs (NFieldList fields) [] fields
| rc_part n c ds fields : plain n = true → c ∈ node_children n → reaches fs c ds fields → reaches fs n ds fields
| rc_group p tok doc specs s ds fields :
    tok = VAR ∨ tok = CONST → s ∈ specs → reaches fs s ds fields → reaches fs (NGenDecl p tok doc specs) ds fields
| rc_type sd sc names l r fl vs x ds fields :
    literal l r fl → filed_under fs names x → reaches fs l ds fields →
    reaches fs (NValueSpec sd sc names (Some l) vs) (Desc x Scip.Meta :: ds) fields
| rc_value sd sc names t vs v x ds fields :
    v ∈ vs → filed_under fs names x → reaches fs v ds fields →
    reaches fs (NValueSpec sd sc names t vs) (Desc x Scip.Meta :: ds) fields.
(** [member fields lits i]: i is the name of a field, method or parameter in [fields], or of an embedded field whose
    type begins with that name, or a member of the literals [lits] nested in its type *)
Inductive member : list node → list nat → Ast.ident → Prop :=
| mem_named fields fd fc names ft i : NField fd fc names ft ∈ fields → i ∈ names → member fields [] i
| mem_embedded fields fd fc ft i : NField fd fc [] ft ∈ fields → embedded_ident ft i → node_pos ft = id_pos i → member fields [] i
| mem_in fields fd fc names ft l r fields' lits i :
    NField fd fc names ft ∈ fields → names ≠ [] → leads_to ft l → literal l r fields' →
    member fields' lits i → member fields (r :: lits) i.
(** a file declares i in the type or initial value of a package-level variable or constant *)
Definition value_member (fs : fset) (f : node) (ds : list descriptor) (lits : list nat) (i : Ast.ident) : Prop :=
  ∃ p h d nm decls q tok doc specs sd sc names t vs fields, f = NFile p h d nm decls ∧ NGenDecl q tok doc specs ∈ decls ∧
    (tok = VAR ∨ tok = CONST) ∧ NValueSpec sd sc names t vs ∈ specs ∧
    reaches fs (NValueSpec sd sc names t vs) ds fields ∧ member fields lits i.

(** *** Proofs *)
Lemma filed_under_name fs names x : filed_under fs names x → spec_scope_name fs names = x ∧ names ≠ [].
Proof. by destruct 1. Qed.
Lemma reaches_poss fs n ds fields p : reaches fs n ds fields → p ∈ poss (NFieldList fields) → p ∈ poss n.
Proof.
  induction 1 as [fields|n c ds fields _ Hc _ IH|q tok doc specs s ds fields _ Hs _ IH|sd sc names l r fl vs x ds fields _ _ _ IH|sd sc names t vs v x ds fields Hv _ _ IH]; intros Hp.
  - done.
  - eapply poss_child; [exact Hc|]. auto.
  - up s. auto.
  - up l. auto.
  - up v. auto.
Qed.
Lemma member_poss fields lits i : member fields lits i → id_pos i ∈ poss (NFieldList fields).
Proof.
  induction 1 as [fields fd fc names ft i Hf Hi|fields fd fc ft i Hf Hi Hp|fields fd fc names ft l r fields' lits i Hf _ Hl Hlit _ IH].
  - up (NField fd fc names ft). up (NIdent i). apply poss_ident.
  - up (NField fd fc [] ft). up ft. rewrite <- Hp. apply poss_self.
  - up (NField fd fc names ft). up ft. eapply leads_to_poss; [done|]. by eapply literal_fields_poss.
Qed.

Section Events.
  Context (digest : string → string) (ti : tinfo) (fs : fset).
  Notation tv := (tv digest ti).
  Notation vv := (vv digest ti fs).
  Notation vvl := (vvl digest ti fs).
  Notation vvnames := (vvnames digest ti fs).
  Notation anon_desc := (anon_desc digest).
  Notation has_texts := (has_texts ti).

  Lemma vv_embedded fd fc ft i st : embedded_ident ft i →
    vv WALK (NField fd fc [] ft) st = (st, [Ev (v_scope st ++ [Desc (id_name i) Term]) (Some (NField fd fc [] ft)) i (node_pos ft)]).
  Proof. intros H. cbn [Pass1.vv]. by rewrite (embedded_ident_list _ _ H). Qed.
  Lemma vv_member fields lits i : member fields lits i → ∀ texts st e,
    has_texts lits texts → wf_pos (NFieldList fields) → common_value_types (NFieldList fields) → (0 < id_pos i)%Z →
    e ∈ (vvl fields st).2 → e_pos e = id_pos i →
    e_descs e = v_scope st ++ map anon_desc texts ++ [Desc (id_name i) Term].
  Proof.
    induction 1 as [fields fd fc names ft i Hf Hi|fields fd fc ft i Hf Hi Hpi|fields fd fc names ft l r fields' lits i Hf Hn Hl Hlit Hnest IH];
      intros texts st e Ht Hwf Hc Hp He Hpos.
    - eapply vv_nested; [by eapply nest_here|done..].
    - inversion Ht; subst. cbn [map app].
      destruct (vvl_ev_scope digest ti fs (NFieldList fields) fields Hc (λ x H, H) st e He) as (f' & st' & Hf' & Hs & He').
      assert (f' = NField fd fc [] ft) as ->.
      { eapply (wf_pos_children (NFieldList fields)); [done|done|done|exact Hp| |].
        - rewrite <- Hpos. by eapply vv_poss.
        - up ft. rewrite <- Hpi. apply poss_self. }
      rewrite (vv_embedded _ _ _ _ _ Hi) in He'. apply elem_of_list_singleton in He' as ->. cbn. by rewrite Hs.
    - destruct (vvl_ev_scope digest ti fs (NFieldList fields) fields Hc (λ x H, H) st e He) as (f' & st' & Hf' & Hs & He').
      assert (Hcf : common_value_types (NField fd fc names ft)) by (eapply common_child; [|exact Hc]; done).
      assert (Hcft : common_value_types ft) by (eapply common_child; [|exact Hcf]; child_mem).
      assert (wf_pos (NField fd fc names ft)) as Hwf' by (eapply wf_pos_child; [|exact Hwf]; done).
      assert (wf_pos ft) as Hwft by (eapply wf_pos_child; [|exact Hwf']; child_mem).
      inversion Ht as [|? t ? texts' Hct Hts]; subst.
      assert (Hin : id_pos i ∈ poss ft).
      { eapply leads_to_poss; [done|]. eapply literal_fields_poss; [done|]. by eapply member_poss. }
      assert (f' = NField fd fc names ft) as ->.
      { eapply (wf_pos_children (NFieldList fields)); [done|done|done|exact Hp| |].
        - rewrite <- Hpos. by eapply vv_poss.
        - by up ft. }
      destruct names as [|n0 names0]; [done|]. rewrite vv_field_names in He'.
      apply vvnames_ev_scope in He' as (j & st2 & Hj & Hs2 & [->|He']); [| |done].
      + exfalso. cbn in Hpos. eapply (wf_pos_split (NField fd fc (n0 :: names0) ft));
          [done|reflexivity| |by apply elem_of_list_singleton|exact Hp| |exact Hin].
        * apply elem_of_list_fmap_1. exact Hj.
        * rewrite <- Hpos. apply poss_ident.
      + eapply vv_anon_unique in He' as (st3 & Hs3 & He'); [|done|done|done|exact Hp| |done].
        2:{ eapply literal_fields_poss; [done|]. by eapply member_poss. }
        rewrite (vv_anon_literal digest ti fs l r fields' st3 t Hlit Hct) in He'.
        eapply IH in He'; [|done| | |done|done].
        * rewrite He'. cbn [v_scope map]. rewrite Hs3, Hs2, Hs. by rewrite <- !List.app_assoc.
        * eapply literal_wf; [done|]. by eapply leads_to_wf.
        * eapply literal_common; [done|]. by eapply leads_to_common.
  Qed.
  Lemma vv_member_in fields lits i : member fields lits i → ∀ texts st, has_texts lits texts →
    common_value_types (NFieldList fields) → ∃ e, e ∈ (vvl fields st).2 ∧ e_pos e = id_pos i.
  Proof.
    induction 1 as [fields fd fc names ft i Hf Hi|fields fd fc ft i Hf Hi Hpi|fields fd fc names ft l r fields' lits i Hf Hn Hl Hlit Hnest IH];
      intros texts st Ht Hc.
    all: destruct (vvl_in_scope digest ti fs (NFieldList fields) fields _ Hc (λ x H, H) Hf st) as (st1 & Hs1 & H1).
    - eapply vv_nested_in; [by eapply nest_here|done..].
    - rewrite (vv_embedded _ _ _ _ _ Hi) in H1. eexists. split; [apply H1; by left|exact Hpi].
    - assert (Hcf : common_value_types (NField fd fc names ft)) by (eapply common_child; [|exact Hc]; done).
      assert (Hcft : common_value_types ft) by (eapply common_child; [|exact Hcf]; child_mem).
      inversion Ht as [|? t ? texts' Hct Hts]; subst. destruct names as [|n0 names0]; [done|]. rewrite vv_field_names in H1.
      destruct (vvnames_in digest ti fs (NField fd fc (n0 :: names0) ft) ft (n0 :: names0) n0 ltac:(left) Hcft st1) as (st2 & Hs2 & _ & H2).
      destruct (vv_anon_in digest ti fs ft l Hl Hcft st2) as (st3 & Hs3 & H3).
      destruct (IH texts' (VState (v_cur st3) (v_scope st3 ++ [anon_desc t])) Hts) as (e & He & Hpos).
      { eapply literal_common; [done|]. by eapply leads_to_common. }
      exists e. split; [|done]. apply H1, H2, H3. by rewrite (vv_anon_literal digest ti fs l r fields' st3 t Hlit Hct).
  Qed.

  (** walking an expression walks its parts, each in the scope of the whole *)
  Ltac part x H := exists x; eexists; split; [child_mem|split; [|exact H]].
  Ltac sc := match goal with |- context [vv ?m ?n ?s] => rewrite (vv_scope digest ti fs n); [|eapply common_child; [|eassumption]; child_mem] end.
  Lemma plain_ev n st e : plain n = true → common_value_types n → e ∈ (vv WALK n st).2 →
    ∃ c st', c ∈ node_children n ∧ v_scope st' = v_scope st ∧ e ∈ (vv WALK c st').2.
  Proof.
    intros Hpl Hc. destruct n as [i|d c' ns t|l|r p n|r p n|p n1 n2 n3|p n1 n2|p l n|p n|p n|p n|p n|n1 n2|n1 n2|n l|n s|n1 n2|p l|? ? ? ?|? ? ? ?|? ? ? ? ?|? ? ? ?|? ? ? ? ? ? ?|? ? ? ? ?|p l]; try discriminate Hpl; cbn [Pass1.vv]; fold vvl.
    - intros He. destruct (vvl_ev_scope digest ti fs (NFieldList l) l Hc (λ x H, H) st e He) as (f' & st' & Hf' & Hs & He'). eauto.
    - intros He. part n He. done.
    - intros He. part n He. done.
    - intros [He|[He|He]%seq_ev]%seq_ev; [part n1 He; done|part n2 He; by sc|part n3 He; sc; by sc].
    - intros [He|He]%seq_ev; [part n1 He; done|part n2 He; by sc].
    - intros [He|He]%seq_ev.
      + destruct l as [x|]; [|by apply elem_of_nil in He]. part x He. done.
      + part n He. destruct l as [x|]; [by sc|done].
    - intros He. part n He. done.
    - intros He. part n He. done.
    - intros He. part n He. done.
    - intros He. part n He. done.
    - intros [He|He]%seq_ev; [part n1 He; done|part n2 He; by sc].
    - intros [He|He]%seq_ev; [part n1 He; done|part n2 He; by sc].
    - intros [He|He]%seq_ev; [part n He; done|].
      eapply (vvl_ev_scope digest ti fs (NIndexListExpr n l) l) in He as (f' & st' & Hf' & Hs & He'); [|done|intros; child_mem].
      part f' He'. rewrite Hs. by sc.
    - intros He. part n He. done.
    - intros [He|He]%seq_ev; [part n1 He; done|part n2 He; by sc].
    - intros He. destruct (vvl_ev_scope digest ti fs (NBlockStmt p l) l Hc (λ x H, H) st e He) as (f' & st' & Hf' & Hs & He'). eauto.
    - intros He. destruct (vvl_ev_scope digest ti fs (NOther p l) l Hc (λ x H, H) st e He) as (f' & st' & Hf' & Hs & He'). eauto.
  Qed.
  Lemma plain_in n c st : plain n = true → common_value_types n → c ∈ node_children n →
    ∃ st', v_scope st' = v_scope st ∧ ∀ e, e ∈ (vv WALK c st').2 → e ∈ (vv WALK n st).2.
  Proof.
    intros Hpl Hc Hin. destruct n as [i|d c' ns t|l|r p n|r p n|p n1 n2 n3|p n1 n2|p l n|p n|p n|p n|p n|n1 n2|n1 n2|n l|n s|n1 n2|p l|? ? ? ?|? ? ? ?|? ? ? ? ?|? ? ? ?|? ? ? ? ? ? ?|? ? ? ? ?|p l]; try discriminate Hpl; cbn [Pass1.vv]; fold vvl; cbn [node_children] in Hin.
    all: try (apply elem_of_list_singleton in Hin as ->; exists st; by split).
    - exact (vvl_in_scope digest ti fs (NFieldList l) l c Hc (λ x H, H) Hin st).
    - rewrite !elem_of_cons, elem_of_nil in Hin. destruct Hin as [->| [->| [->|[]]]]; eexists; (split; [|intros e He; rewrite !seq_evs, !elem_of_app; eauto]); [done|by sc|sc; by sc].
    - rewrite !elem_of_cons, elem_of_nil in Hin. destruct Hin as [->| [->|[]]]; eexists; (split; [|intros e He; rewrite !seq_evs, !elem_of_app; eauto]); [done|by sc].
    - apply elem_of_app in Hin as [Hin|Hin].
      + destruct l as [x|]; [|by apply elem_of_nil in Hin]. apply elem_of_list_singleton in Hin as ->.
        exists st. split; [done|]. intros e He. rewrite seq_evs, elem_of_app. by left.
      + apply elem_of_list_singleton in Hin as ->. eexists. split; [|intros e He; rewrite seq_evs, elem_of_app; right; exact He].
        destruct l as [x|]; [by sc|done].
    - rewrite !elem_of_cons, elem_of_nil in Hin. destruct Hin as [->| [->|[]]]; eexists; (split; [|intros e He; rewrite !seq_evs, !elem_of_app; eauto]); [done|by sc].
    - rewrite !elem_of_cons, elem_of_nil in Hin. destruct Hin as [->| [->|[]]]; eexists; (split; [|intros e He; rewrite !seq_evs, !elem_of_app; eauto]); [done|by sc].
    - apply elem_of_cons in Hin as [->|Hin].
      + exists st. split; [done|]. intros e He. rewrite seq_evs, elem_of_app. by left.
      + destruct (vvl_in_scope digest ti fs (NIndexListExpr n l) l c Hc ltac:(intros; child_mem) Hin (vv WALK n st).1) as (st' & Hs & H').
        exists st'. split; [rewrite Hs; by sc|]. intros e He. rewrite seq_evs, elem_of_app. right. by apply H'.
    - rewrite !elem_of_cons, elem_of_nil in Hin. destruct Hin as [->| [->|[]]].
      + exists st. by split.
      + exists st. split; [done|]. intros e He. cbn in He. by apply elem_of_nil in He.
    - rewrite !elem_of_cons, elem_of_nil in Hin. destruct Hin as [->| [->|[]]]; eexists; (split; [|intros e He; rewrite !seq_evs, !elem_of_app; eauto]); [done|by sc].
    - exact (vvl_in_scope digest ti fs (NBlockStmt p l) l c Hc (λ x H, H) Hin st).
    - exact (vvl_in_scope digest ti fs (NOther p l) l c Hc (λ x H, H) Hin st).
  Qed.

  (** a value spec: its names, then its literal type and its values in the scope of the spec *)
  Lemma spec_ev sd sc0 names t vs st e : common_value_types (NValueSpec sd sc0 names t vs) →
    e ∈ (vv WALK (NValueSpec sd sc0 names t vs) st).2 →
    e_pos e ∈ map id_pos names ∨
    ∃ c st', (t = Some c ∨ c ∈ vs) ∧ v_scope st' = v_scope st ++ [Desc (spec_scope_name fs names) Scip.Meta] ∧ e ∈ (vv WALK c st').2.
  Proof.
    intros Hc. cbn [Pass1.vv]; fold vvl. destruct names as [|i0 ns0]; [by intros ?%elem_of_nil|].
    set (st1 := v_push st _). set (names := i0 :: ns0).
    set (r := match t with Some _ => _ | None => _ end).
    assert (Hr : e ∈ r.2 → ∃ c st', (t = Some c ∨ c ∈ vs) ∧ v_scope st' = v_scope st1 ∧ e ∈ (vv WALK c st').2).
    { assert (Hvs : ∀ st2, e ∈ (vvl vs st2).2 → ∃ c st', c ∈ vs ∧ v_scope st' = v_scope st2 ∧ e ∈ (vv WALK c st').2).
      { intros st2 He. eapply (vvl_ev_scope digest ti fs (NValueSpec sd sc0 names t vs) vs); [done|intros; child_mem|done]. }
      subst r. destruct t as [t|].
      - destruct (vtype_action_of t).
        + rewrite anon_evs. intros (c & st' & Hx & Hs & He)%Hvs. eauto 6.
        + intros [He|He]%seq_ev.
          * exists t, st1. eauto.
          * rewrite anon_evs in He. apply Hvs in He as (c & st' & Hx & Hs & He). exists c, st'. split; [by right|]. split; [|done].
            rewrite Hs. apply vv_scope. eapply common_child; [|exact Hc]. child_mem.
        + cbn. by intros ?%elem_of_nil.
      - rewrite anon_evs. intros (c & st' & Hx & Hs & He)%Hvs. eauto 6. }
    destruct r as [st' e']. cbn [snd] in *. rewrite elem_of_app.
    intros [(i & -> & Hi)%elem_of_list_fmap|He].
    - left. cbn [e_pos]. apply (elem_of_list_fmap_1 id_pos). exact Hi.
    - right. apply Hr, He.
  Qed.
  Lemma spec_in sd sc0 names t vs c st : common_value_types (NValueSpec sd sc0 names t vs) → names ≠ [] →
    (t = Some c ∧ vtype_action_of c = VWalk) ∨ c ∈ vs →
    ∃ st', v_scope st' = v_scope st ++ [Desc (spec_scope_name fs names) Scip.Meta] ∧
      ∀ e, e ∈ (vv WALK c st').2 → e ∈ (vv WALK (NValueSpec sd sc0 names t vs) st).2.
  Proof.
    intros Hc Hn Hx. cbn [Pass1.vv]; fold vvl. destruct names as [|i0 ns0]; [done|].
    set (st1 := v_push st _). set (names := i0 :: ns0).
    set (r := match t with Some _ => _ | None => _ end).
    assert (Hr : ∃ st', v_scope st' = v_scope st1 ∧ ∀ e, e ∈ (vv WALK c st').2 → e ∈ r.2).
    { assert (Hvs : c ∈ vs → ∀ st2, ∃ st', v_scope st' = v_scope st2 ∧ ∀ e, e ∈ (vv WALK c st').2 → e ∈ (vvl vs st2).2).
      { intros Hin st2. eapply (vvl_in_scope digest ti fs (NValueSpec sd sc0 names t vs) vs); [done|intros; child_mem|done]. }
      subst r. destruct Hx as [[-> Hw]|Hin].
      - rewrite Hw. exists st1. split; [done|]. intros e He. rewrite seq_evs. apply elem_of_app. by left.
      - specialize (Hvs Hin). destruct t as [t|].
        + assert (Hct : common_type_form t) by (eapply (Hc sd sc0 names t vs), subnodes_self).
          destruct (vtype_action_of t) eqn:Ha.
          * destruct (Hvs st1) as (st' & Hs & H). exists st'. split; [done|]. intros e He. rewrite anon_evs. auto.
          * destruct (Hvs (vv WALK t st1).1) as (st' & Hs & H). exists st'. split.
            -- rewrite Hs. apply vv_scope. eapply common_child; [|exact Hc]. child_mem.
            -- intros e He. rewrite seq_evs. apply elem_of_app. right. rewrite anon_evs. auto.
          * by destruct t.
        + destruct (Hvs st1) as (st' & Hs & H). exists st'. split; [done|]. intros e He. rewrite anon_evs. auto. }
    destruct r as [sr er]. cbn [snd] in *. destruct Hr as (st' & Hs & H). exists st'. split; [exact Hs|].
    intros e He. apply elem_of_app. right. auto.
  Qed.

  Lemma reaches_unique n ds fields : reaches fs n ds fields → ∀ st e p, wf_pos n → common_value_types n → (0 < p)%Z →
    p ∈ poss (NFieldList fields) → e ∈ (vv WALK n st).2 → e_pos e = p →
    ∃ st', v_scope st' = v_scope st ++ ds ∧ e ∈ (vvl fields st').2.
  Proof.
    induction 1 as [fields|n c ds fields Hpl Hc Hr IH|q tok doc specs s ds fields Htok Hs Hr IH|sd sc names l r fl vs x ds fields Hlit Hx Hr IH|sd sc names t vs v x ds fields Hv Hx Hr IH];
      intros st e p Hwf Hcv Hp Hpf He Hpos; pose proof (reaches_poss _ _ _ _ p Hr) as Hpp || idtac.
    - exists st. rewrite List.app_nil_r. by split.
    - apply plain_ev in He as (c' & st1 & Hc' & Hs1 & He); [|done..].
      assert (c' = c) as ->.
      { eapply (wf_pos_children n); [done|done|done|exact Hp| |auto]. rewrite <- Hpos. by eapply vv_poss. }
      rewrite <- Hs1. eapply IH; [by eapply wf_pos_child|by eapply common_child|exact Hp|done|done|done].
    - assert (He' : e ∈ (vvl specs (VState (Some (NGenDecl q tok doc specs)) (v_scope st))).2) by (destruct Htok as [->| ->]; exact He).
      destruct (vvl_ev_scope digest ti fs (NGenDecl q tok doc specs) specs Hcv (λ x H, H) _ e He') as (s' & st1 & Hs' & Hs1 & He1).
      assert (s' = s) as ->.
      { eapply (wf_pos_children (NGenDecl q tok doc specs)); [done|done|done|exact Hp| |auto]. rewrite <- Hpos. by eapply vv_poss. }
      cbn [v_scope] in Hs1. rewrite <- Hs1.
      eapply IH; [eapply wf_pos_child; [|exact Hwf]; done|eapply common_child; [|exact Hcv]; done|exact Hp|done|done|done].
    - destruct (filed_under_name _ _ _ Hx) as [Hn1 Hn2].
      apply spec_ev in He as [He|(c & st1 & Hc & Hs1 & He)]; [| |done].
      + exfalso. apply elem_of_list_fmap in He as (i & Ei & Hi).
        eapply (wf_pos_split (NValueSpec sd sc names (Some l) vs) (map NIdent names) (l :: vs) (NIdent i) l p);
          [done|reflexivity|by apply elem_of_list_fmap_1|by left|exact Hp| |auto].
        rewrite <- Hpos, Ei. apply poss_ident.
      + assert (c = l) as ->.
        { eapply (wf_pos_children (NValueSpec sd sc names (Some l) vs)); [done| |child_mem|exact Hp| |auto].
          - destruct Hc as [[= ->]|Hc]; child_mem.
          - rewrite <- Hpos. by eapply vv_poss. }
        rewrite Hn1 in Hs1.
        eapply IH in He as (st' & E & He); [|eapply wf_pos_child; [|exact Hwf]; child_mem|eapply common_child; [|exact Hcv]; child_mem|exact Hp|done|done].
        exists st'. split; [|done]. rewrite E, Hs1. by rewrite <- List.app_assoc.
    - destruct (filed_under_name _ _ _ Hx) as [Hn1 Hn2].
      apply spec_ev in He as [He|(c & st1 & Hc & Hs1 & He)]; [| |done].
      + exfalso. apply elem_of_list_fmap in He as (i & Ei & Hi).
        eapply (wf_pos_split (NValueSpec sd sc names t vs) (map NIdent names) (opt_node t ++ vs) (NIdent i) v p);
          [done|reflexivity|by apply elem_of_list_fmap_1|apply elem_of_app; by right|exact Hp| |auto].
        rewrite <- Hpos, Ei. apply poss_ident.
      + assert (c = v) as ->.
        { eapply (wf_pos_children (NValueSpec sd sc names t vs)); [done| |child_mem|exact Hp| |auto].
          - destruct Hc as [->|Hc]; child_mem.
          - rewrite <- Hpos. by eapply vv_poss. }
        rewrite Hn1 in Hs1.
        eapply IH in He as (st' & E & He); [|eapply wf_pos_child; [|exact Hwf]; child_mem|eapply common_child; [|exact Hcv]; child_mem|exact Hp|done|done].
        exists st'. split; [|done]. rewrite E, Hs1. by rewrite <- List.app_assoc.
  Qed.
  Lemma reaches_in n ds fields : reaches fs n ds fields → ∀ st, common_value_types n →
    common_value_types (NFieldList fields) ∧
    ∃ st', ∀ e, e ∈ (vvl fields st').2 → e ∈ (vv WALK n st).2.
  Proof.
    induction 1 as [fields|n c ds fields Hpl Hc Hr IH|q tok doc specs s ds fields Htok Hs Hr IH|sd sc names l r fl vs x ds fields Hlit Hx Hr IH|sd sc names t vs v x ds fields Hv Hx Hr IH];
      intros st Hcv.
    - split; [done|]. by exists st.
    - destruct (plain_in n c st Hpl Hcv Hc) as (st1 & _ & H1).
      destruct (IH st1) as (H2 & st2 & H3); [by eapply common_child|]. split; [done|]. exists st2. auto.
    - destruct (vvl_in_scope digest ti fs (NGenDecl q tok doc specs) specs s Hcv (λ x H, H) Hs (VState (Some (NGenDecl q tok doc specs)) (v_scope st))) as (st1 & _ & H1).
      destruct (IH st1) as (H2 & st2 & H3); [eapply common_child; [|exact Hcv]; done|]. split; [done|]. exists st2.
      intros e He. destruct Htok as [->| ->]; apply H1, H3, He.
    - destruct (filed_under_name _ _ _ Hx) as [_ Hn2].
      destruct (spec_in sd sc names (Some l) vs l st Hcv Hn2) as (st1 & _ & H1); [left; split; [done|by eapply literal_action]|].
      destruct (IH st1) as (H2 & st2 & H3); [eapply common_child; [|exact Hcv]; child_mem|]. split; [done|]. exists st2. auto.
    - destruct (filed_under_name _ _ _ Hx) as [_ Hn2].
      destruct (spec_in sd sc names t vs v st Hcv Hn2) as (st1 & _ & H1); [by right|].
      destruct (IH st1) as (H2 & st2 & H3); [eapply common_child; [|exact Hcv]; child_mem|]. split; [done|]. exists st2. auto.
  Qed.
  Lemma reaches_wf n ds fields : reaches fs n ds fields → wf_pos n → wf_pos (NFieldList fields).
  Proof.
    induction 1 as [fields|n c ds fields Hpl Hc Hr IH|q tok doc specs s ds fields Htok Hs Hr IH|sd sc names l r fl vs x ds fields Hlit Hx Hr IH|sd sc names t vs v x ds fields Hv Hx Hr IH];
      intros Hwf; [done|apply IH; eapply wf_pos_child; [|exact Hwf]; child_mem..].
  Qed.
End Events.

(** C52: the symbol of every field, method or parameter in the type or initial value of a package-level variable *)
Theorem C52_value_members : ∀ digest ti fs env pkg tbl f ds lits texts i,
  wf_pkg_pos pkg → pkg_common_value_types pkg → f ∈ p_syntax pkg → value_member fs f ds lits i →
  Forall2 (λ r t, ti_canon ti r = Some t) lits texts → (0 < id_pos i)%Z →
  visit_package_table digest ti fs env pkg = Ok tbl →
  ∃ m info, p_module pkg = Some m ∧ tbl !! id_pos i = Some info ∧
    i_symbol info = anon_symbol digest (p_path pkg) m ds texts (id_name i).
Proof.
  intros digest ti fs env pkg tbl F ds lits texts i [Hwf Hsep] Hcv HF (p & h & d & nm & decls & q & tok & doc & specs & sd & sc & names & t & vs & fields & -> & Hdecl & Htok & Hspec & Hr & Hm) Ht Hp Htbl.
  set (decl := NGenDecl q tok doc specs) in *. set (spec := NValueSpec sd sc names t vs) in *.
  assert (His : id_pos i ∈ poss spec) by (eapply reaches_poss; [done|]; by eapply member_poss).
  assert (Hi : id_pos i ∈ poss decl) by (eapply (poss_child decl); [exact Hspec|done]).
  assert (Hwfd : wf_pos decl) by (eapply wf_pos_child; [|exact (Hwf _ HF)]; child_mem).
  assert (Hcd : common_value_types decl) by (eapply common_child; [|exact (Hcv _ HF)]; child_mem).
  assert (Hrd : reaches fs decl ds fields) by by eapply rc_group.
  assert (Hda : ∀ e, e ∈ decl_all digest ti fs (p_path pkg) decl → e_pos e = id_pos i →
    e ∈ (vv digest ti fs WALK decl (VState None (new_scope (p_path pkg)))).2).
  { intros e He Hpos. unfold decl_all in He. apply elem_of_app in He as [He|He].
    - exfalso. unfold decl in He. cbn [Pass1.tv] in He. apply elem_of_concat_map in He as (s & Hs' & He).
      assert (s = spec) as ->.
      { eapply (wf_pos_children decl); [done|exact Hs'|exact Hspec|exact Hp| |done]. rewrite <- Hpos. by eapply tv_poss. }
      cbn in He. by apply elem_of_nil in He.
    - unfold decl in *. destruct Htok as [->| ->]; exact He. }
  assert (Hu : ∀ e, e ∈ package_events digest ti fs pkg → e_pos e = id_pos i →
    e_descs e = anon_descriptors digest (p_path pkg) ds texts (id_name i)).
  { intros e He Hpos. apply elem_of_concat_map in He as (f' & Hf' & He).
    assert (f' = NFile p h d nm decls) as ->.
    { eapply pairwise_sep_eq; [exact Hsep|done|done|exact Hp| |].
      - rewrite <- Hpos. by eapply file_events_poss.
      - up decl. done. }
    apply file_events_elem in He as (decl' & Hdecl' & He).
    assert (decl' = decl) as ->.
    { eapply (wf_pos_children (NFile p h d nm decls)); [by apply Hwf|child_mem|child_mem|exact Hp| |done].
      rewrite <- Hpos. apply elem_of_app in He as [He|He]; [by eapply tv_poss|].
      destruct decl'; try (by apply elem_of_nil in He).
      - destruct tok0; try (by apply elem_of_nil in He); by eapply vv_poss.
      - by eapply fv_poss. }
    apply Hda in He; [|done].
    eapply reaches_unique in He as (st' & Hs & He); [|exact Hrd|done|done|exact Hp|by eapply member_poss|done].
    eapply vv_member in He; [|exact Hm|exact Ht|by eapply reaches_wf| |exact Hp|exact Hpos].
    - rewrite He, Hs. unfold new_scope, anon_descriptors. cbn [v_scope]. rewrite <- List.app_assoc. reflexivity.
    - exact (proj1 (reaches_in digest ti fs decl ds fields Hrd (VState None []) Hcd)). }
  assert (He0 : ∃ e, e ∈ package_events digest ti fs pkg ∧ e_pos e = id_pos i).
  { destruct (reaches_in digest ti fs decl ds fields Hrd (VState None (new_scope (p_path pkg))) Hcd) as (Hcf & st' & Hin).
    destruct (vv_member_in digest ti fs fields lits i Hm texts st' Ht Hcf) as (e & He & Hpos). exists e. split; [|done].
    apply elem_of_concat_map. eexists. split; [exact HF|]. apply file_events_elem. exists decl. split; [done|].
    unfold decl_all. apply elem_of_app. right. apply Hin in He. unfold decl in *. destruct Htok as [->| ->]; exact He. }
  destruct He0 as (e0 & He0 & Hp0).
  unfold visit_package_table in Htbl. destruct (p_module pkg) as [m|] eqn:Hmod.
  - rewrite (res_fold_put ti env pkg m) in Htbl by done. injection Htbl as <-.
    destruct (foldl_put_first ti env m (package_events digest ti fs pkg) ∅ (id_pos i)) as (e & He & Hpos & Hl).
    + apply lookup_empty.
    + eauto.
    + intros a b Ha Hb Hpa Hpb. unfold event_info. cbn. by rewrite (Hu a), (Hu b).
    + exists m, (event_info ti env m e). split; [done|]. split; [done|]. unfold event_info, anon_symbol. cbn. by rewrite Hu.
  - apply res_fold_no_module in Htbl; [|done]. rewrite Htbl in He0. by apply elem_of_nil in He0.
Qed.
Print Assumptions C52_value_members.

Lemma reaches_sub fs n ds fields : reaches fs n ds fields → NFieldList fields ∈ subnodes n.
Proof.
  induction 1 as [fields|n c ds fields Hpl Hc Hr IH|q tok doc specs s ds fields Htok Hs Hr IH|sd sc names l r fl vs x ds fields Hlit Hx Hr IH|sd sc names t vs v x ds fields Hv Hx Hr IH];
    [apply subnodes_self|eapply subnodes_child; [|exact IH]; child_mem..].
Qed.

(** C63: the same navigation for every field, method and parameter declared in the type or in the initial value of a
    package-level variable or constant (several variables in one spec, composite literals, function types and
    literals, nested declarations), including embedded fields whose type begins with their name. *)
Theorem C63_value_members_partial : ∀ digest P msgs p f ti ds lits texts i par def,
  indexed_with digest P msgs → p ∈ pr_pkgs P → f ∈ p_syntax p → p_info p = Some ti →
  wf_pkg_pos p → pkg_common_value_types p →
  value_member (pr_fs P) f ds lits i → Forall2 (λ r t, ti_canon ti r = Some t) lits texts →
  (0 < id_pos i)%Z → (par, NIdent i) ∈ file_nodes f → visible P ti par i → no_switch ti i →
  ti_defs ti (id_ptr i) = Some def → p_path p ≠ "unsafe" →
  ∃ m, p_module p = Some m ∧
    let s := anon_symbol digest (p_path p) m ds texts (id_name i) in
    describes P msgs p f s ∧ defines P msgs p f i s ∧
    (∀ p2 f2 i2, use_of P p (id_pos i) p2 f2 i2 → refers P msgs p2 f2 i2 s).
Proof.
  intros digest P msgs p f ti ds lits texts i par def Hx Hp Hf Hti Hwf Hcv Hm Ht Hpos Hnode Hvis S Hdef Hun.
  assert (Hmod : ∃ m, p_module p = Some m).
  { destruct Hx as (objstr & mo & root & version & impl & ie & po & ao & po2 & skip & meta & w & Hix & _).
    eapply project_module; [exact Hix|exact Hp]. }
  destruct Hmod as [m Hmod].
  assert (Hreg : registers digest P p i (anon_symbol digest (p_path p) m ds texts (id_name i))).
  { intros ti' tbl Hti' Hv. assert (ti' = ti) as -> by congruence.
    destruct (C52_value_members digest ti (pr_fs P) (pr_env P) p tbl f ds lits texts i Hwf Hcv Hf Hm Ht Hpos Hv) as (m' & info & Hm' & Hl & Hs).
    assert (m' = m) as -> by congruence. by exists info. }
  assert (Hb : below_decl f i).
  { destruct Hm as (a & h & d & nm & decls & q & tok & doc & specs & sd & sc & names & t & vs & fields & -> & Hdecl & Htok & Hspec & Hr & Hm).
    eexists _, _, _, _, _, _. split; [reflexivity|]. split; [exact Hdecl|].
    eapply (poss_child (NGenDecl q tok doc specs)); [exact Hspec|]. eapply reaches_poss; [exact Hr|]. by eapply member_poss. }
  assert (Hsub : NIdent i ∈ subnodes f).
  { destruct Hx as (objstr & mo & root & version & impl & ie & po & ao & po2 & skip & meta & w & Hix & _).
    destruct (tpj_info _ _ _ _ (ix_typed _ _ _ _ _ _ Hix) p f Hp Hf) as (ti' & name' & Hti2 & Htf & Hdi & _).
    change (NIdent i) with (snd (par, NIdent i)). by eapply file_nodes_sub. }
  exists m. split; [done|]. cbv zeta. split; [|split].
  - eapply registered_described; [exact Hx|exact Hp|exact Hf|exact Hti|exact Hwf|exact Hb|exact Hpos|exact Hreg|exact Hsub].
  - eapply registered_defined; [exact Hx|exact Hp|exact Hf|exact Hti|exact Hwf|exact Hb|exact Hpos|exact Hreg|exact Hnode|exact Hvis|done|exact Hdef].
  - intros p2 f2 i2 Huse. eapply registered_referred; [exact Hx|exact Hp|exact Hf|exact Hti|exact Hwf|exact Hb|exact Hpos|exact Hreg|done|done].
Qed.
Print Assumptions C63_value_members_partial.
