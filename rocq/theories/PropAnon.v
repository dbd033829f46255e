(** C52: members of anonymous struct and interface types. *)
From Coq Require Import Ascii String.
From stdpp Require Import prelude strings gmap.
From Verif Require Import GoStr Scip GoTypes Ast Packages Symbols Document Lookup Pass1 SpecSymbol SpecDecl P_Symbols P_Pass1 ExDecl.
Open Scope string_scope.
Open Scope list_scope.

(** *** Specification *)
(** a struct or interface literal: its identity and members *)
Inductive literal : node → nat → list node → Prop :=
| lit_struct r p fields : literal (NStructType r p (NFieldList fields)) r fields
| lit_iface r p fields : literal (NInterfaceType r p (NFieldList fields)) r fields.
(** [leads_to t l]: the literal l is t itself, or the element type of a map, array, slice or pointer in t *)
Inductive leads_to : node → node → Prop :=
| lt_here l r fs : literal l r fs → leads_to l l
| lt_key p k v l : leads_to k l → leads_to (NMapType p k v) l
| lt_value p k v l : leads_to v l → leads_to (NMapType p k v) l
| lt_elem p len e l : leads_to e l → leads_to (NArrayType p len e) l
| lt_star p x l : leads_to x l → leads_to (NStarExpr p x) l.
(** [nested fields lits i f]: the identifier i is declared by the field f, which is in
    [fields] or in literals nested in their types; [lits]: these literals, outermost first *)
Inductive nested : list node → list nat → ident → node → Prop :=
| nest_here fields fd fc names ft i :
    NField fd fc names ft ∈ fields → i ∈ names → nested fields [] i (NField fd fc names ft)
| nest_in fields fd fc names ft l r fields' lits i f :
    NField fd fc names ft ∈ fields → names ≠ [] → leads_to ft l → literal l r fields' →
    nested fields' lits i f → nested fields (r :: lits) i f.

(** an identifier inside a type declaration or a variable declaration whose type is a literal:
    the descriptors of the declaration, the members of its type *)
Inductive owner (fs : fset) : node → list descriptor → list node → Prop :=
| own_type p doc specs sd T tps l r fields :
    NTypeSpec sd T tps l ∈ specs → literal l r fields →
    owner fs (NGenDecl p TYPE doc specs) [Desc (id_name T) Type_] fields
| own_value p tok doc specs sd sc x l r fields vs :
    tok = VAR ∨ tok = CONST → NValueSpec sd sc [x] (Some l) vs ∈ specs → literal l r fields →
    owner fs (NGenDecl p tok doc specs) [Desc (id_name x) Scip.Meta] fields.
Definition pkg_owner (fs : fset) (pkg : gpkg) (ds : list descriptor) (fields : list node) : Prop :=
  ∃ f p h d nm decls decl, f ∈ p_syntax pkg ∧ f = NFile p h d nm decls ∧ decl ∈ decls ∧ owner fs decl ds fields.

(** the symbol of a member: the declaration, then one descriptor per anonymous type, made from
    the canonical text of that type, then the name *)
Definition anon_descriptors (digest : string → string) (path : string) (ds : list descriptor) (texts : list string) (name : string) : list descriptor :=
  Desc path Namespace :: ds ++ map (λ t, Desc ("$anon_" +:+ digest t) Type_) texts ++ [Desc name Term].
Definition anon_symbol (digest : string → string) (path : string) (m : gmodule) (ds : list descriptor) (texts : list string) (name : string) : string :=
  format_symbol (Sym "scip-go" (SPkg "gomod" (m_path m) (m_version m)) (anon_descriptors digest path ds texts name)).

(** *** Positions *)
Lemma literal_fields_poss l r fields p : literal l r fields → p ∈ poss (NFieldList fields) → p ∈ poss l.
Proof. destruct 1; intros Hp; by up (NFieldList fields). Qed.
Lemma leads_to_poss t l p : leads_to t l → p ∈ poss l → p ∈ poss t.
Proof.
  induction 1 as [| q k v l _ IH| q k v l _ IH|q len e l _ IH|q x l _ IH]; intros Hp; [done|up k|up v|up e|up x]; auto.
Qed.
Lemma nested_poss fields lits i f : nested fields lits i f → id_pos i ∈ poss (NFieldList fields).
Proof.
  induction 1 as [fields fd fc names ft i Hf Hi|fields fd fc names ft l r fields' lits i f Hf _ Hl Hlit _ IH].
  - up (NField fd fc names ft). up (NIdent i). apply poss_ident.
  - up (NField fd fc names ft). up ft. eapply leads_to_poss; [done|]. by eapply literal_fields_poss.
Qed.
Lemma leads_to_wf t l : leads_to t l → wf_pos t → wf_pos l.
Proof.
  induction 1 as [| q k v l _ IH| q k v l _ IH|q len e l _ IH|q x l _ IH]; intros Hwf; [done|apply IH..];
    (eapply wf_pos_child; [|exact Hwf]; child_mem).
Qed.
Lemma literal_wf l r fields : literal l r fields → wf_pos l → wf_pos (NFieldList fields).
Proof. destruct 1; intros Hwf; (eapply wf_pos_child; [|exact Hwf]; left). Qed.
Lemma leads_to_common t l : leads_to t l → common_value_types t → common_value_types l.
Proof.
  induction 1 as [| q k v l _ IH| q k v l _ IH|q len e l _ IH|q x l _ IH]; intros Hc; [done|apply IH..];
    (eapply common_child; [|exact Hc]; child_mem).
Qed.
Lemma literal_common l r fields : literal l r fields → common_value_types l → common_value_types (NFieldList fields).
Proof. destruct 1; intros Hc; (eapply common_child; [|exact Hc]; left). Qed.

Section Events.
  Context (digest : string → string) (ti : tinfo) (fs : fset).
  Notation tv := (tv digest ti).
  Notation vv := (vv digest ti fs).
  Notation vvl := (vvl digest ti fs).
  Notation vvnames := (vvnames digest ti fs).
  Definition anon_desc (t : string) : descriptor := Desc ("$anon_" +:+ digest t) Type_.
  Definition has_texts (lits : list nat) (texts : list string) : Prop := Forall2 (λ r t, ti_canon ti r = Some t) lits texts.

  Lemma key_not_empty r t : ti_canon ti r = Some t → anon_type_key digest ti r = "$anon_" +:+ digest t ∧
    String.eqb (anon_type_key digest ti r) "" = false.
  Proof. intros H. unfold anon_type_key. rewrite H. done. Qed.

  (** *** typeVisitor *)
  Lemma tv_anon_literal l r fields iface cur sc t : literal l r fields → ti_canon ti r = Some t →
    tv ANON iface cur sc l = tv WALK iface cur (sc ++ [anon_desc t]) (NFieldList fields).
  Proof.
    intros Hl Ht. destruct (key_not_empty _ _ Ht) as [E1 E2].
    destruct Hl; cbn [Pass1.tv]; rewrite E2, E1; reflexivity.
  Qed.
  Lemma tv_anon_unique t l : leads_to t l → ∀ iface cur sc e p, wf_pos t → (0 < p)%Z → p ∈ poss l →
    e ∈ tv ANON iface cur sc t → e_pos e = p → e ∈ tv ANON iface cur sc l.
  Proof.
    induction 1 as [| q k v l Hl IH| q k v l Hl IH|q len e' l _ IH|q x l _ IH]; intros iface cur sc e p Hwf Hp Hpl He Hpos; [done|..].
    - cbn [Pass1.tv] in He. apply elem_of_app in He as [He|He].
      + eapply IH; [|done..]. eapply wf_pos_child; [|exact Hwf]. child_mem.
      + exfalso. eapply (wf_pos_split (NMapType q k v) [k] [v] k v p); [done|done|by left|by left|done| |].
        * by eapply leads_to_poss.
        * rewrite <- Hpos. by eapply tv_poss.
    - cbn [Pass1.tv] in He. apply elem_of_app in He as [He|He].
      + exfalso. eapply (wf_pos_split (NMapType q k v) [k] [v] k v p); [done|done|by left|by left|done| |].
        * rewrite <- Hpos. by eapply tv_poss.
        * by eapply leads_to_poss.
      + eapply IH; [|done..]. eapply wf_pos_child; [|exact Hwf]. child_mem.
    - cbn [Pass1.tv] in He. eapply IH; [|done..]. eapply wf_pos_child; [|exact Hwf]. child_mem.
    - cbn [Pass1.tv] in He. eapply IH; [|done..]. eapply wf_pos_child; [|exact Hwf]. child_mem.
  Qed.
  Lemma tv_anon_in t l : leads_to t l → ∀ iface cur sc e, e ∈ tv ANON iface cur sc l → e ∈ tv ANON iface cur sc t.
  Proof.
    induction 1 as [| q k v l Hl IH| q k v l Hl IH|q len e' l _ IH|q x l _ IH]; intros iface cur sc e He; [done|..];
      cbn [Pass1.tv]; rewrite ?elem_of_app; auto.
  Qed.
  Lemma tv_nested fields lits i f : nested fields lits i f → ∀ texts iface cur sc e,
    has_texts lits texts → wf_pos (NFieldList fields) → (0 < id_pos i)%Z →
    e ∈ tv WALK iface cur sc (NFieldList fields) → e_pos e = id_pos i →
    e_descs e = sc ++ map anon_desc texts ++ [Desc (id_name i) Term].
  Proof.
    induction 1 as [fields fd fc names ft i Hf Hi|fields fd fc names ft l r fields' lits i f Hf Hn Hl Hlit Hnest IH];
      intros texts iface cur sc e Ht Hwf Hp He Hpos.
    - inversion Ht; subst. cbn [map app]. cbn [Pass1.tv] in He.
      destruct (field_event digest ti fields cur sc iface fd fc names ft i e Hwf Hf Hi Hp He Hpos) as (E & _). done.
    - inversion Ht as [|? t ? texts' Hct Hts]; subst. cbn [Pass1.tv] in He.
      assert (Hin : id_pos i ∈ poss ft).
      { eapply leads_to_poss; [done|]. eapply literal_fields_poss; [done|]. by eapply nested_poss. }
      apply elem_of_concat_map in He as (f' & Hf' & He).
      assert (f' = NField fd fc names ft) as ->.
      { eapply (wf_pos_children (NFieldList fields)); [done|done|done|exact Hp| |].
        - rewrite <- Hpos. by eapply tv_poss.
        - by up ft. }
      assert (wf_pos (NField fd fc names ft)) as Hwf' by (eapply wf_pos_child; [|exact Hwf]; done).
      assert (wf_pos ft) as Hwft by (eapply wf_pos_child; [|exact Hwf']; child_mem).
      cbn [Pass1.tv] in He. destruct names as [|n0 names0]; [done|].
      apply elem_of_concat_map in He as (j & Hj & [->|He]%elem_of_cons).
      + exfalso. cbn in Hpos. eapply (wf_pos_split (NField fd fc (n0 :: names0) ft));
          [done|reflexivity| |by apply elem_of_list_singleton|exact Hp| |exact Hin].
        * apply elem_of_list_fmap_1. exact Hj.
        * rewrite <- Hpos. apply poss_ident.
      + assert (He' : e ∈ tv ANON iface cur sc l).
        { eapply tv_anon_unique; [done|done|exact Hp| |done|done]. eapply literal_fields_poss; [done|]. by eapply nested_poss. }
        rewrite (tv_anon_literal l r fields' iface cur sc t Hlit Hct) in He'.
        cbn [map]. rewrite (IH texts' iface cur (sc ++ [anon_desc t]) e); [|done| |done|done|done].
        * by rewrite <- !List.app_assoc.
        * eapply literal_wf; [done|]. by eapply leads_to_wf.
  Qed.
  Lemma tv_nested_in fields lits i f : nested fields lits i f → ∀ texts iface cur sc,
    has_texts lits texts → ∃ e, e ∈ tv WALK iface cur sc (NFieldList fields) ∧ e_pos e = id_pos i.
  Proof.
    induction 1 as [fields fd fc names ft i Hf Hi|fields fd fc names ft l r fields' lits i f Hf Hn Hl Hlit Hnest IH];
      intros texts iface cur sc Ht.
    - eexists. split; [by eapply field_event_in|done].
    - inversion Ht as [|? t ? texts' Hct Hts]; subst.
      destruct (IH texts' iface cur (sc ++ [anon_desc t]) Hts) as (e & He & Hpos). exists e. split; [|done].
      cbn [Pass1.tv]. apply elem_of_concat_map. eexists. split; [exact Hf|]. cbn [Pass1.tv]. destruct names as [|n0 names0]; [done|].
      apply elem_of_concat_map. exists n0. split; [left|]. right. eapply tv_anon_in; [done|].
      by rewrite (tv_anon_literal l r fields' iface cur sc t Hlit Hct).
  Qed.

  (** *** varVisitor *)
  Lemma vv_anon_literal l r fields st t : literal l r fields → ti_canon ti r = Some t →
    (vv ANON l st).2 = (vvl fields (VState (v_cur st) (v_scope st ++ [anon_desc t]))).2.
  Proof.
    intros Hl Ht. destruct (key_not_empty _ _ Ht) as [E1 E2].
    destruct Hl; cbn [Pass1.vv]; rewrite E2, E1, anon_evs; reflexivity.
  Qed.
  Lemma vv_anon_unique t l : leads_to t l → ∀ st e p, wf_pos t → common_value_types t → (0 < p)%Z → p ∈ poss l →
    e ∈ (vv ANON t st).2 → e_pos e = p → ∃ st', v_scope st' = v_scope st ∧ e ∈ (vv ANON l st').2.
  Proof.
    induction 1 as [| q k v l Hl IH| q k v l Hl IH|q len e' l _ IH|q x l _ IH]; intros st e p Hwf Hc Hp Hpl He Hpos; [by exists st|..].
    - cbn [Pass1.vv] in He. apply seq_ev in He as [He|He].
      + eapply IH; [| |done..]; [eapply wf_pos_child; [|exact Hwf]|eapply common_child; [|exact Hc]]; child_mem.
      + exfalso. eapply (wf_pos_split (NMapType q k v) [k] [v] k v p); [done|done|by left|by left|done| |].
        * by eapply leads_to_poss.
        * rewrite <- Hpos. by eapply vv_poss.
    - cbn [Pass1.vv] in He. apply seq_ev in He as [He|He].
      + exfalso. eapply (wf_pos_split (NMapType q k v) [k] [v] k v p); [done|done|by left|by left|done| |].
        * rewrite <- Hpos. by eapply vv_poss.
        * by eapply leads_to_poss.
      + destruct (IH (vv ANON k st).1 e p) as (st' & Hs & H'); [| |done..|].
        * eapply wf_pos_child; [|exact Hwf]; child_mem.
        * eapply common_child; [|exact Hc]; child_mem.
        * exists st'. split; [|done]. rewrite Hs. apply vv_scope. eapply common_child; [|exact Hc]; child_mem.
    - cbn [Pass1.vv] in He. eapply IH; [| |done..]; [eapply wf_pos_child; [|exact Hwf]|eapply common_child; [|exact Hc]]; child_mem.
    - cbn [Pass1.vv] in He. eapply IH; [| |done..]; [eapply wf_pos_child; [|exact Hwf]|eapply common_child; [|exact Hc]]; child_mem.
  Qed.
  Lemma vv_anon_in t l : leads_to t l → common_value_types t → ∀ st, ∃ st', v_scope st' = v_scope st ∧
    ∀ e, e ∈ (vv ANON l st').2 → e ∈ (vv ANON t st).2.
  Proof.
    induction 1 as [| q k v l Hl IH| q k v l Hl IH|q len e' l _ IH|q x l _ IH]; intros Hc st; [by exists st|..]; cbn [Pass1.vv].
    - destruct (IH ltac:(eapply common_child; [|exact Hc]; child_mem) st) as (st' & Hs & H). exists st'. split; [done|].
      intros e He. rewrite seq_evs, elem_of_app. left. auto.
    - destruct (IH ltac:(eapply common_child; [|exact Hc]; child_mem) (vv ANON k st).1) as (st' & Hs & H). exists st'. split.
      + rewrite Hs. apply vv_scope. eapply common_child; [|exact Hc]; child_mem.
      + intros e He. rewrite seq_evs, elem_of_app. right. auto.
    - apply IH. eapply common_child; [|exact Hc]; child_mem.
    - apply IH. eapply common_child; [|exact Hc]; child_mem.
  Qed.
  Lemma vvnames_ev_scope n t l : common_value_types t → ∀ st e, e ∈ (vvnames n t l st).2 →
    ∃ i st', i ∈ l ∧ v_scope st' = v_scope st ∧ (e = Ev (v_scope st ++ [Desc (id_name i) Term]) (Some n) i (id_pos i)
                      ∨ e ∈ (vv ANON t st').2).
  Proof.
    intros Hc. induction l as [|i l IH]; intros st e; cbn [P_Pass1.vvnames]; [by intros ?%elem_of_nil|].
    intros [H|H]%seq_ev.
    - destruct (vv ANON t st) as [st' e'] eqn:E. cbn in H. apply elem_of_cons in H as [->|H].
      + exists i, st. split; [by constructor|]. split; [done|by left].
      + exists i, st. split; [by constructor|]. split; [done|]. right. by rewrite E.
    - apply IH in H as (j & st' & Hj & Hs & H). exists j, st'. split; [by constructor|].
      assert (E : v_scope (let '(st', e) := vv ANON t st in
            (st', Ev (v_scope st ++ [Desc (id_name i) Term]) (Some n) i (id_pos i) :: e)).1 = v_scope st).
      { pose proof (vv_scope digest ti fs t Hc ANON st) as Hsc. by destruct (vv ANON t st). }
      rewrite E in *. done.
  Qed.
  Lemma vvnames_in n t l j : j ∈ l → common_value_types t → ∀ st, ∃ st', v_scope st' = v_scope st ∧
    (∃ ds par, Ev ds par j (id_pos j) ∈ (vvnames n t l st).2) ∧ ∀ e, e ∈ (vv ANON t st').2 → e ∈ (vvnames n t l st).2.
  Proof.
    intros Hj Hc. induction l as [|i l IH]; intros st; [by apply elem_of_nil in Hj|]. cbn [P_Pass1.vvnames]. rewrite seq_evs.
    set (r := let '(st', e) := vv ANON t st in
            (st', Ev (v_scope st ++ [Desc (id_name i) Term]) (Some n) i (id_pos i) :: e)).
    assert (E : v_scope r.1 = v_scope st ∧ (∀ e, e ∈ (vv ANON t st).2 → e ∈ r.2) ∧ 
                Ev (v_scope st ++ [Desc (id_name i) Term]) (Some n) i (id_pos i) ∈ r.2).
    { unfold r. pose proof (vv_scope digest ti fs t Hc ANON st) as Hsc. destruct (vv ANON t st). cbn in *. split; [done|].
      split; [intros e He; by right|left]. }
    destruct E as (E1 & E2 & E3). apply elem_of_cons in Hj as [->|Hj].
    - exists st. split; [done|]. split; [do 2 eexists; apply elem_of_app; left; exact E3|]. intros e He. apply elem_of_app. left. auto.
    - destruct (IH Hj r.1) as (st' & Hs & (ds & par & Hev) & H). exists st'. split; [by rewrite Hs|].
      split; [exists ds, par; apply elem_of_app; by right|]. intros e He. apply elem_of_app. right. auto.
  Qed.
  Lemma vv_field_names fd fc n0 names0 ft st :
    vv WALK (NField fd fc (n0 :: names0) ft) st = vvnames (NField fd fc (n0 :: names0) ft) ft (n0 :: names0) st.
  Proof. reflexivity. Qed.
  Lemma vv_nested fields lits i f : nested fields lits i f → ∀ texts st e,
    has_texts lits texts → wf_pos (NFieldList fields) → common_value_types (NFieldList fields) → (0 < id_pos i)%Z →
    e ∈ (vvl fields st).2 → e_pos e = id_pos i →
    e_descs e = v_scope st ++ map anon_desc texts ++ [Desc (id_name i) Term].
  Proof.
    induction 1 as [fields fd fc names ft i Hf Hi|fields fd fc names ft l r fields' lits i f Hf Hn Hl Hlit Hnest IH];
      intros texts st e Ht Hwf Hc Hp He Hpos.
    all: destruct (vvl_ev_scope digest ti fs (NFieldList fields) fields Hc (λ x H, H) st e He) as (f' & st' & Hf' & Hs & He').
    all: assert (Hcf : common_value_types (NField fd fc names ft)) by (eapply common_child; [|exact Hc]; done).
    all: assert (Hcft : common_value_types ft) by (eapply common_child; [|exact Hcf]; child_mem).
    all: assert (wf_pos (NField fd fc names ft)) as Hwf' by (eapply wf_pos_child; [|exact Hwf]; done).
    all: assert (wf_pos ft) as Hwft by (eapply wf_pos_child; [|exact Hwf']; child_mem).
    - inversion Ht; subst. cbn [map app].
      assert (f' = NField fd fc names ft) as ->.
      { eapply (wf_pos_children (NFieldList fields)); [done|done|done|exact Hp| |].
        - rewrite <- Hpos. by eapply vv_poss.
        - up (NIdent i). apply poss_ident. }
      destruct names as [|n0 names0]; [by apply elem_of_nil in Hi|]. rewrite vv_field_names in He'.
      apply vvnames_ev_scope in He' as (j & st2 & Hj & Hs2 & [->|He']); [| |done].
      + cbn in Hpos |- *. rewrite Hs. do 2 f_equal. f_equal. assert (j = i) as ->; [|done].
        eapply wf_pos_names; [exact Hwf'|reflexivity|done..].
      + exfalso. eapply (wf_pos_split (NField fd fc (n0 :: names0) ft));
          [done|reflexivity| |by apply elem_of_list_singleton|exact Hp|apply poss_ident|].
        * apply elem_of_list_fmap_1. done.
        * rewrite <- Hpos. by eapply vv_poss.
    - inversion Ht as [|? t ? texts' Hct Hts]; subst.
      assert (Hin : id_pos i ∈ poss ft).
      { eapply leads_to_poss; [done|]. eapply literal_fields_poss; [done|]. by eapply nested_poss. }
      assert (f' = NField fd fc names ft) as ->.
      { eapply (wf_pos_children (NFieldList fields)); [done|done|done|exact Hp| |].
        - rewrite <- Hpos. by eapply vv_poss.
        - by up ft. }
      destruct names as [|n0 names0]; [done|]. rewrite vv_field_names in He'.
      apply vvnames_ev_scope in He' as (j & st2 & Hj & Hs2 & [->|He']); [| |done].
      + exfalso. cbn in Hpos. eapply (wf_pos_split (NField fd fc (n0 :: names0) ft));
          [done|reflexivity| |by apply elem_of_list_singleton|exact Hp| |exact Hin].
        * apply elem_of_list_fmap_1. exact Hj.
        * rewrite <- Hpos. apply poss_ident.
      + eapply vv_anon_unique in He' as (st3 & Hs3 & He'); [|done|done|done|exact Hp| |done].
        2:{ eapply literal_fields_poss; [done|]. by eapply nested_poss. }
        rewrite (vv_anon_literal l r fields' st3 t Hlit Hct) in He'.
        eapply IH in He'; [|done| | |done|done].
        * rewrite He'. cbn [v_scope map]. rewrite Hs3, Hs2, Hs. by rewrite <- !List.app_assoc.
        * eapply literal_wf; [done|]. by eapply leads_to_wf.
        * eapply literal_common; [done|]. by eapply leads_to_common.
  Qed.
  Lemma vv_nested_in fields lits i f : nested fields lits i f → ∀ texts st, has_texts lits texts →
    common_value_types (NFieldList fields) → ∃ e, e ∈ (vvl fields st).2 ∧ e_pos e = id_pos i.
  Proof.
    induction 1 as [fields fd fc names ft i Hf Hi|fields fd fc names ft l r fields' lits i f Hf Hn Hl Hlit Hnest IH];
      intros texts st Ht Hc.
    all: assert (Hcf : common_value_types (NField fd fc names ft)) by (eapply common_child; [|exact Hc]; done).
    all: assert (Hcft : common_value_types ft) by (eapply common_child; [|exact Hcf]; child_mem).
    all: destruct (vvl_in_scope digest ti fs (NFieldList fields) fields _ Hc (λ x H, H) Hf st) as (st1 & Hs1 & H1).
    - destruct names as [|n0 names0]; [by apply elem_of_nil in Hi|]. rewrite vv_field_names in H1.
      destruct (vvnames_in (NField fd fc (n0 :: names0) ft) ft (n0 :: names0) i Hi Hcft st1) as (_ & _ & (ds & par & Hev) & _).
      eexists. split; [by apply H1|done].
    - inversion Ht as [|? t ? texts' Hct Hts]; subst. destruct names as [|n0 names0]; [done|]. rewrite vv_field_names in H1.
      destruct (vvnames_in (NField fd fc (n0 :: names0) ft) ft (n0 :: names0) n0 ltac:(left) Hcft st1) as (st2 & Hs2 & _ & H2).
      destruct (vv_anon_in ft l Hl Hcft st2) as (st3 & Hs3 & H3).
      destruct (IH texts' (VState (v_cur st3) (v_scope st3 ++ [anon_desc t])) Hts) as (e & He & Hpos).
      { eapply literal_common; [done|]. by eapply leads_to_common. }
      exists e. split; [|done]. apply H1, H2, H3. by rewrite (vv_anon_literal l r fields' st3 t Hlit Hct).
  Qed.

  (** *** Declarations *)
  Context (path : string).
  Notation decl_all := (decl_all digest ti fs path).
  Lemma literal_walk_tv l r fields iface cur sc : literal l r fields → tv WALK iface cur sc l = tv WALK iface cur sc (NFieldList fields).
  Proof. by destruct 1. Qed.
  Lemma literal_walk_vv l r fields st : literal l r fields → vv WALK l st = vvl fields st.
  Proof. by destruct 1. Qed.
  Lemma literal_action l r fields : literal l r fields → vtype_action_of l = VWalk.
  Proof. by destruct 1. Qed.
  Lemma owner_poss d ds fields p : owner fs d ds fields → p ∈ poss (NFieldList fields) → p ∈ poss d.
  Proof.
    destruct 1 as [q doc specs sd T tps l r fields Hs Hl|q tok doc specs sd sc x l r fields vs _ Hs Hl]; intros Hp.
    - up (NTypeSpec sd T tps l). up l. by eapply literal_fields_poss.
    - up (NValueSpec sd sc [x] (Some l) vs). up l. by eapply literal_fields_poss.
  Qed.
  Lemma nested_decl_unique d ds fields lits texts i f e :
    owner fs d ds fields → nested fields lits i f → has_texts lits texts → wf_pos d → common_value_types d →
    (0 < id_pos i)%Z → e ∈ decl_all d → e_pos e = id_pos i →
    e_descs e = Desc path Namespace :: ds ++ map anon_desc texts ++ [Desc (id_name i) Term].
  Proof.
    intros Ho Hn Ht Hwf Hc Hp He Hpos. pose proof (nested_poss _ _ _ _ Hn) as Hin.
    destruct Ho as [q doc specs sd T tps l r fields Hs Hl|q tok doc specs sd sc x l r fields vs Htok Hs Hl].
    - unfold P_Pass1.decl_all in He. cbn [Pass1.decl_events] in He. rewrite List.app_nil_r in He. cbn [Pass1.tv] in He.
      apply elem_of_concat_map in He as (s & Hs' & He).
      assert (s = NTypeSpec sd T tps l) as ->.
      { eapply (wf_pos_children (NGenDecl q TYPE doc specs)); [done|child_mem|child_mem|exact Hp| |].
        - rewrite <- Hpos. by eapply tv_poss.
        - up l. by eapply literal_fields_poss. }
      assert (Hwfs : wf_pos (NTypeSpec sd T tps l)) by (eapply wf_pos_child; [|exact Hwf]; child_mem).
      cbn [Pass1.tv] in He. apply elem_of_cons in He as [->|He].
      + exfalso. cbn in Hpos. eapply (wf_pos_split (NTypeSpec sd T tps l) [NIdent T; tps] [l]); [done|reflexivity|by left|by left|exact Hp| |].
        * rewrite <- Hpos. apply poss_ident.
        * by eapply literal_fields_poss.
      + rewrite (literal_walk_tv _ _ _ _ _ _ Hl) in He. eapply tv_nested in He; [|done..| |done|done].
        * rewrite He. unfold new_scope. cbn [app]. done.
        * eapply literal_wf; [done|]. eapply wf_pos_child; [|exact Hwfs]. child_mem.
    - assert (He' : e ∈ (vvl specs (VState (Some (NGenDecl q tok doc specs)) (new_scope path))).2).
      { unfold P_Pass1.decl_all in He. apply elem_of_app in He as [He|He].
        - exfalso. cbn [Pass1.tv] in He. apply elem_of_concat_map in He as (s & Hs' & He).
          assert (s = NValueSpec sd sc [x] (Some l) vs) as ->.
          { eapply (wf_pos_children (NGenDecl q tok doc specs)); [done|child_mem|child_mem|exact Hp| |].
            - rewrite <- Hpos. by eapply tv_poss.
            - up l. by eapply literal_fields_poss. }
          cbn in He. by apply elem_of_nil in He.
        - destruct Htok as [->| ->]; exact He. }
      destruct (vvl_ev_scope digest ti fs (NGenDecl q tok doc specs) specs Hc (λ x H, H) _ e He') as (s & st' & Hs' & Hsc & He2).
      assert (s = NValueSpec sd sc [x] (Some l) vs) as ->.
      { eapply (wf_pos_children (NGenDecl q tok doc specs)); [done|child_mem|child_mem|exact Hp| |].
        - rewrite <- Hpos. by eapply vv_poss.
        - up l. by eapply literal_fields_poss. }
      assert (Hwfs : wf_pos (NValueSpec sd sc [x] (Some l) vs)) by (eapply wf_pos_child; [|exact Hwf]; child_mem).
      assert (Hcs : common_value_types (NValueSpec sd sc [x] (Some l) vs)) by (eapply common_child; [|exact Hc]; child_mem).
      cbn [Pass1.vv] in He2. rewrite (literal_action _ _ _ Hl) in He2. cbn [spec_scope_name] in He2.
      rewrite (literal_walk_vv _ _ _ _ Hl) in He2. fold vvl in He2.
      match type of He2 with context [seq ?r ?k] => set (R := r) in He2; set (K := k) in He2 end.
      destruct (seq R K) as [st2 e2] eqn:Eseq. cbn [snd] in He2. apply elem_of_app in He2 as [He2|He2].
      + exfalso. apply elem_of_list_fmap in He2 as (j & -> & Hj). apply elem_of_list_singleton in Hj as ->. cbn in Hpos.
        eapply (wf_pos_split (NValueSpec sd sc [x] (Some l) vs) [NIdent x] (l :: vs)); [done|reflexivity|by left|by left|exact Hp| |].
        * rewrite <- Hpos. apply poss_ident.
        * by eapply literal_fields_poss.
      + assert (He3 : e ∈ (seq R K).2) by (rewrite Eseq; done). apply seq_ev in He3 as [He3|He3].
        * unfold R in He3. eapply vv_nested in He3; [|done..| | |done|done].
          -- rewrite He3. cbn [v_scope v_push]. rewrite Hsc. unfold new_scope. cbn [v_scope]. rewrite <- !List.app_assoc. done.
          -- eapply literal_wf; [done|]. eapply wf_pos_child; [|exact Hwfs]. child_mem.
          -- eapply literal_common; [done|]. eapply common_child; [|exact Hcs]. child_mem.
        * exfalso. unfold K in He3. rewrite anon_evs in He3. apply vvl_ev in He3 as (y & st3 & Hy & He3).
          eapply (wf_pos_split (NValueSpec sd sc [x] (Some l) vs) [NIdent x; l] vs l y); [done|reflexivity|right; by left|exact Hy|exact Hp| |].
          -- by eapply literal_fields_poss.
          -- rewrite <- Hpos. by eapply vv_poss.
  Qed.
  Lemma nested_decl_exists d ds fields lits texts i f :
    owner fs d ds fields → nested fields lits i f → has_texts lits texts → common_value_types d →
    ∃ e, e ∈ decl_all d ∧ e_pos e = id_pos i.
  Proof.
    intros Ho Hn Ht Hc. unfold P_Pass1.decl_all.
    destruct Ho as [q doc specs sd T tps l r fields Hs Hl|q tok doc specs sd sc x l r fields vs Htok Hs Hl].
    - edestruct (tv_nested_in fields lits i f Hn texts) as (e & He & Hpos); [done|].
      exists e. split; [|done]. apply elem_of_app. left. cbn [Pass1.tv]. apply elem_of_concat_map.
      eexists. split; [exact Hs|]. cbn [Pass1.tv]. right. rewrite (literal_walk_tv _ _ _ _ _ _ Hl). exact He.
    - destruct (vvl_in_scope digest ti fs (NGenDecl q tok doc specs) specs _ Hc (λ x H, H) Hs
        (VState (Some (NGenDecl q tok doc specs)) (new_scope path))) as (st' & Hsc & HH).
      assert (Hcs : common_value_types (NValueSpec sd sc [x] (Some l) vs)) by (eapply common_child; [|exact Hc]; child_mem).
      destruct (vv_nested_in fields lits i f Hn texts (v_push st' (Desc (spec_scope_name fs [x]) Scip.Meta)) Ht) as (e & He & Hpos).
      { eapply literal_common; [done|]. eapply common_child; [|exact Hcs]. child_mem. }
      exists e. split; [|done]. apply elem_of_app. right.
      assert (Hev : ∀ e, e ∈ (vvl specs (VState (Some (NGenDecl q tok doc specs)) (new_scope path))).2 →
        e ∈ decl_events digest ti fs path (NGenDecl q tok doc specs)).
      { intros e0 He0. destruct Htok as [->| ->]; exact He0. }
      apply Hev, HH. cbn [Pass1.vv]. rewrite (literal_action _ _ _ Hl). rewrite (literal_walk_vv _ _ _ _ Hl). fold vvl.
      match goal with |- context [seq ?r ?k] => set (R := r); set (K := k) end.
      destruct (seq R K) as [st2 e2] eqn:Eseq. cbn [snd]. apply elem_of_app. right.
      assert (e ∈ (seq R K).2) as H; [|by rewrite Eseq in H]. rewrite seq_evs. apply elem_of_app. left. exact He.
  Qed.
End Events.

(** C52: a member of anonymous types nested in a type or variable declaration has the symbol
    made of the declaration, the canonical texts of those types, and its name. *)
Theorem C52_anonymous_members : ∀ digest ti fs env pkg tbl ds fields lits texts i f,
  wf_pkg_pos pkg → pkg_common_value_types pkg → pkg_owner fs pkg ds fields → nested fields lits i f →
  Forall2 (λ r t, ti_canon ti r = Some t) lits texts → (0 < id_pos i)%Z →
  visit_package_table digest ti fs env pkg = Ok tbl →
  ∃ m info, p_module pkg = Some m ∧ tbl !! id_pos i = Some info ∧
    i_symbol info = anon_symbol digest (p_path pkg) m ds texts (id_name i).
Proof.
  intros digest ti fs env pkg tbl ds fields lits texts i f [Hwf Hsep] Hcv (F & p & h & d & nm & decls & decl & HF & -> & Hdecl & Ho) Hn Ht Hp Htbl.
  assert (Hi : id_pos i ∈ poss decl) by (eapply owner_poss; [done|]; by eapply nested_poss).
  assert (Hwfd : wf_pos decl) by (eapply wf_pos_child; [|exact (Hwf _ HF)]; child_mem).
  assert (Hcd : common_value_types decl) by (eapply common_child; [|exact (Hcv _ HF)]; child_mem).
  assert (Hu : ∀ e, e ∈ package_events digest ti fs pkg → e_pos e = id_pos i →
    e_descs e = anon_descriptors digest (p_path pkg) ds texts (id_name i)).
  { intros e He Hpos. apply elem_of_concat_map in He as (f' & Hf' & He).
    assert (f' = NFile p h d nm decls) as ->.
    { eapply pairwise_sep_eq; [exact Hsep|done|done|exact Hp| |].
      - rewrite <- Hpos. by eapply file_events_poss.
      - up decl. done. }
    apply file_events_elem in He as (decl' & Hdecl' & He).
    assert (decl' = decl) as ->.
    { eapply (wf_pos_children (NFile p h d nm decls)); [by apply Hwf|child_mem|child_mem|exact Hp| |done].
      rewrite <- Hpos. apply elem_of_app in He as [He|He]; [by eapply tv_poss|].
      destruct decl'; try (by apply elem_of_nil in He).
      - destruct tok; try (by apply elem_of_nil in He); by eapply vv_poss.
      - by eapply fv_poss. }
    by eapply nested_decl_unique. }
  destruct (nested_decl_exists digest ti fs (p_path pkg) decl ds fields lits texts i f Ho Hn Ht Hcd) as (e0 & He0 & Hp0).
  assert (He0' : e0 ∈ package_events digest ti fs pkg).
  { apply elem_of_concat_map. eexists. split; [exact HF|]. apply file_events_elem. by exists decl. }
  unfold visit_package_table in Htbl. destruct (p_module pkg) as [m|] eqn:Hm.
  - rewrite (res_fold_put ti env pkg m) in Htbl by done. injection Htbl as <-.
    destruct (foldl_put_first ti env m (package_events digest ti fs pkg) ∅ (id_pos i)) as (e & He & Hpos & Hl).
    + apply lookup_empty.
    + eauto.
    + intros a b Ha Hb Hpa Hpb. unfold event_info. cbn. by rewrite (Hu a), (Hu b).
    + exists m, (event_info ti env m e). split; [done|]. split; [done|]. unfold event_info, anon_symbol. cbn. by rewrite Hu.
  - apply res_fold_no_module in Htbl; [|done]. rewrite Htbl in He0'. by apply elem_of_nil in He0'.
Qed.
Print Assumptions C52_anonymous_members.

(** C52: members of the same name of identical anonymous types (same canonical text) in one
    declaration share their symbol, wherever the types occur. *)
Theorem C52_identical_types_share : ∀ digest ti fs env pkg tbl ds fields fields' lits lits' texts i i' f f',
  wf_pkg_pos pkg → pkg_common_value_types pkg →
  pkg_owner fs pkg ds fields → nested fields lits i f → pkg_owner fs pkg ds fields' → nested fields' lits' i' f' →
  Forall2 (λ r t, ti_canon ti r = Some t) lits texts → Forall2 (λ r t, ti_canon ti r = Some t) lits' texts →
  id_name i' = id_name i → (0 < id_pos i)%Z → (0 < id_pos i')%Z →
  visit_package_table digest ti fs env pkg = Ok tbl →
  ∃ info info', tbl !! id_pos i = Some info ∧ tbl !! id_pos i' = Some info' ∧ i_symbol info = i_symbol info'.
Proof.
  intros digest ti fs env pkg tbl ds fields fields' lits lits' texts i i' f f' Hwf Hcv Ho Hn Ho' Hn' Ht Ht' Hname Hp Hp' Htbl.
  destruct (C52_anonymous_members digest ti fs env pkg tbl ds fields lits texts i f Hwf Hcv Ho Hn Ht Hp Htbl) as (m & info & Hm & H1 & H2).
  destruct (C52_anonymous_members digest ti fs env pkg tbl ds fields' lits' texts i' f' Hwf Hcv Ho' Hn' Ht' Hp' Htbl) as (m' & info' & Hm' & H1' & H2').
  exists info, info'. split; [done|]. split; [done|]. rewrite H2, H2', Hname. congruence.
Qed.

(** C52: as long as the digest distinguishes the texts, members of different types or of
    different names have different symbols. *)
Theorem C52_different_types_differ : ∀ (digest : string → string) path m ds texts texts' name name',
  no_leading_space (m_path m) = true → no_leading_space (m_version m) = true →
  (∀ t t', t ∈ texts → t' ∈ texts' → digest t = digest t' → t = t') →
  anon_symbol digest path m ds texts name = anon_symbol digest path m ds texts' name' →
  texts = texts' ∧ name = name'.
Proof.
  intros digest path m ds texts texts' name name' H1 H2 Hinj E.
  unfold anon_symbol in E. apply format_symbol_inj in E; [|unfold clean_symbol; cbn; by rewrite H1, H2..].
  unfold normal_symbol, anon_descriptors in E. cbn in E. injection E as E. apply app_inv_head in E.
  apply app_inj_tail in E as [E [= ->]]. split; [|done].
  revert texts' Hinj E. induction texts as [|t texts IH]; intros [|t' texts'] Hinj E; [done|done|done|].
  cbn in E. injection E as E1 E2.
  f_equal.
  - apply Hinj; [by left|by left|done].
  - apply IH; [|done]. intros a b Ha Hb. apply Hinj; by right.
Qed.
Print Assumptions C52_different_types_differ.

(** C52: such a symbol never equals one made of Go names only (no Go name starts with a
    dollar sign): it clashes with no declared name. *)
Theorem C52_no_clash : ∀ digest path m ds texts name descs,
  no_leading_space (m_path m) = true → no_leading_space (m_version m) = true → texts ≠ [] →
  Forall (λ d, ∀ s, d_name d ≠ String "$" s) descs →
  anon_symbol digest path m ds texts name ≠ format_symbol (Sym "scip-go" (SPkg "gomod" (m_path m) (m_version m)) descs).
Proof.
  intros digest path m ds texts name descs H1 H2 Hne Hd E.
  unfold anon_symbol in E. apply format_symbol_inj in E; [|unfold clean_symbol; cbn; by rewrite H1, H2..].
  unfold normal_symbol in E. cbn in E. injection E as E. destruct texts as [|t texts]; [done|].
  rewrite <- E in Hd. rewrite Forall_forall in Hd.
  eapply (Hd (Desc ("$anon_" +:+ digest t) Type_)); [|reflexivity].
  unfold anon_descriptors. right. apply elem_of_app. right. cbn. left.
Qed.

(** *** Example.
    package p
    type T struct { A struct { X int }; B []struct { X int } }
    var x struct { C struct { X int } } *)
Module ExAnon.
  Definition e0 : node := NFieldList [].
  Definition inner (n : nat) (z : Z) : node :=
    NStructType n z (NFieldList [NField "" "" [Ident (n + 1) "X" (z + 8)%Z] (NIdent (Ident (n + 2) "int" (z + 10)%Z))]).
  Definition fsT : list node :=
    [NField "" "" [Ident 2 "A" 30] (inner 20 32); NField "" "" [Ident 3 "B" 50] (NArrayType 52 None (inner 30 54))].
  Definition fsx : list node := [NField "" "" [Ident 5 "C" 110] (inner 40 112)].
  Definition dT : node := NGenDecl 12 TYPE "" [NTypeSpec "" (Ident 1 "T" 17) e0 (NStructType 10 19 (NFieldList fsT))].
  Definition dx : node := NGenDecl 90 VAR "" [NValueSpec "" "" [Ident 4 "x" 95] (Some (NStructType 11 97 (NFieldList fsx))) []].
  Definition file : node := NFile 1 false "" (Ident 0 "p" 9) [dT; dx].
  Definition mod_ : gmodule := GMod "ex.org" "v1.0.0" "" "" None.
  Definition pkg : gpkg := GPkg 1 "ex.org/p" "p" (Some mod_) [] [file] (Some (TPkg "ex.org/p" [])) None.
  Definition ti : tinfo := TInfo (λ _, None) (λ _, None) (λ _, None) []
    (λ r, if existsb (Nat.eqb r) [20; 30; 40] then Some "struct{X int}" else None) (λ _, "").
  Definition fs : fset := FSet (λ p, Position "p.go" 1 p) (λ _, Some "p.go").
  Definition env : tenv := λ _ _, TStruct [].
  Lemma wf : wf_pkg_pos pkg.
  Proof. apply wf_pkgb_ok. vm_compute. reflexivity. Qed.
  Lemma common : pkg_common_value_types pkg.
  Proof. apply common_valuesb_ok. vm_compute. reflexivity. Qed.
  Lemma table : ∃ tbl, visit_package_table (λ s, s) ti fs env pkg = Ok tbl.
  Proof. unfold visit_package_table. rewrite (res_fold_put ti env pkg mod_) by done. eauto. Qed.
  Lemma ownT : pkg_owner fs pkg [Desc "T" Type_] fsT.
  Proof.
    exists file, 1%Z, false, "", (Ident 0 "p" 9%Z), [dT; dx], dT. split; [by left|]. split; [done|]. split; [by left|].
    apply (own_type fs 12 "" _ "" (Ident 1 "T" 17) e0 (NStructType 10 19 (NFieldList fsT)) 10); [by left|constructor].
  Qed.
  Lemma ownx : pkg_owner fs pkg [Desc "x" Scip.Meta] fsx.
  Proof.
    exists file, 1%Z, false, "", (Ident 0 "p" 9%Z), [dT; dx], dx. split; [by left|]. split; [done|]. split; [right; by left|].
    apply (own_value fs 90 VAR "" _ "" "" (Ident 4 "x" 95) (NStructType 11 97 (NFieldList fsx)) 11 fsx []);
      [by left|by left|constructor].
  Qed.
  Lemma nestA : ∃ f, nested fsT [20] (Ident 21 "X" 40) f.
  Proof.
    eexists. eapply (nest_in fsT "" "" [Ident 2 "A" 30] (inner 20 32)); [by left|done|eapply lt_here; constructor|constructor|].
    eapply nest_here; by left.
  Qed.
  Lemma nestB : ∃ f, nested fsT [30] (Ident 31 "X" 62) f.
  Proof.
    eexists. eapply (nest_in fsT "" "" [Ident 3 "B" 50] _ (inner 30 54)); [right; by left|done|apply lt_elem; eapply lt_here; constructor|constructor|].
    eapply nest_here; by left.
  Qed.
  Lemma nestx : ∃ f, nested fsx [40] (Ident 41 "X" 120) f.
  Proof.
    eexists. eapply (nest_in fsx "" "" [Ident 5 "C" 110] (inner 40 112)); [by left|done|eapply lt_here; constructor|constructor|].
    eapply nest_here; by left.
  Qed.
  Lemma texts r : r ∈ [20; 30; 40] → Forall2 (λ r t, ti_canon ti r = Some t) [r] ["struct{X int}"].
  Proof.
    intros H. constructor; [|constructor]. rewrite !elem_of_cons, elem_of_nil in H. by destruct H as [->|[->|[->|[]]]].
  Qed.
End ExAnon.
Example C52_example : ∃ tbl a b c, visit_package_table (λ s, s) ExAnon.ti ExAnon.fs ExAnon.env ExAnon.pkg = Ok tbl ∧
  tbl !! 40%Z = Some a ∧ tbl !! 62%Z = Some b ∧ tbl !! 120%Z = Some c ∧
  i_symbol a = "scip-go gomod ex.org v1.0.0 `ex.org/p`/T#`$anon_struct{X int}`#X." ∧ i_symbol b = i_symbol a ∧
  i_symbol c = "scip-go gomod ex.org v1.0.0 `ex.org/p`/x:`$anon_struct{X int}`#X.".
Proof.
  destruct ExAnon.table as (tbl & Htbl). destruct ExAnon.nestA as (fA & HA). destruct ExAnon.nestB as (fB & HB). destruct ExAnon.nestx as (fx & Hx).
  destruct (C52_anonymous_members _ _ _ _ _ _ _ _ _ ["struct{X int}"] _ _ ExAnon.wf ExAnon.common ExAnon.ownT HA (ExAnon.texts 20 ltac:(in_list)) eq_refl Htbl)
    as (m & a & [= <-] & Ha & Ea).
  destruct (C52_anonymous_members _ _ _ _ _ _ _ _ _ ["struct{X int}"] _ _ ExAnon.wf ExAnon.common ExAnon.ownT HB (ExAnon.texts 30 ltac:(in_list)) eq_refl Htbl)
    as (m & b & [= <-] & Hb & Eb).
  destruct (C52_anonymous_members _ _ _ _ _ _ _ _ _ ["struct{X int}"] _ _ ExAnon.wf ExAnon.common ExAnon.ownx Hx (ExAnon.texts 40 ltac:(in_list)) eq_refl Htbl)
    as (m & c & [= <-] & Hc & Ec).
  exists tbl, a, b, c. split; [done|]. split; [done|]. split; [done|]. split; [done|]. rewrite Ea, Eb, Ec. by vm_compute.
Qed.
