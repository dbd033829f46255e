(** C63: members of anonymous types that the declaration pass does not reach are document-local. *)
From Coq Require Import Ascii String.
From stdpp Require Import prelude strings gmap sorting.
From Verif Require Import GoStr Scip GoTypes Packages Symbols Document Lookup Pass1 Pass2 Paths
  Loader Index Ast SpecSymbol SpecDecl SpecLookup SpecOcc SpecIndex
  P_Symbols P_Pass1 P_Link P_Lookup P_Pass2 P_Occ P_Scope P_Index PropDecl PropOcc PropIndex PropCross ExDecl ExOcc ExIndex ExCross PropNav PropLocal.
Open Scope string_scope.
Open Scope list_scope.

(** *** Specification *)
(** t is a struct or interface type literal *)
Definition literal_type (t : node) : Prop := match t with NStructType _ _ _ | NInterfaceType _ _ _ => True | _ => False end.
(** t is a map, slice, array or pointer type *)
Definition wrapper_type (t : node) : Prop := match t with NMapType _ _ _ | NArrayType _ _ _ | NStarExpr _ _ => True | _ => False end.
(** t is a type expression that starts with a function type, a name, a channel, a slice, an array, a map, a pointer,
    or is an instantiated type *)
Definition plain_type (t : node) : Prop := match t with
  | NFuncType _ _ _ _ | NIdent _ | NChanType _ _ | NArrayType _ _ _ | NMapType _ _ _ | NStarExpr _ _
  | NSelectorExpr _ _ | NIndexExpr _ _ | NIndexListExpr _ _ => True
  | _ => False end.

(** Identifier i is in the type t of a field, behind a channel, a function type, parentheses or an instantiation
    (any type that is neither a map, slice, array or pointer, nor a literal), possibly in fields of nested literals *)
Inductive concealed : node → Ast.ident → Prop :=
| cc_behind t i : ¬ literal_type t → ¬ wrapper_type t → NIdent i ∈ subnodes t → concealed t i
| cc_key p k v i : concealed k i → concealed (NMapType p k v) i
| cc_value p k v i : concealed v i → concealed (NMapType p k v) i
| cc_elem p l e i : concealed e i → concealed (NArrayType p l e) i
| cc_star p x i : concealed x i → concealed (NStarExpr p x) i
| cc_struct r p fields fd fc names t i : NField fd fc names t ∈ fields → names ≠ [] → concealed t i →
    concealed (NStructType r p (NFieldList fields)) i
| cc_interface r p fields fd fc names t i : NField fd fc names t ∈ fields → names ≠ [] → concealed t i →
    concealed (NInterfaceType r p (NFieldList fields)) i.

(** Identifier i is in a package-level declaration of f, out of reach of the declaration pass: in the type of a type
    declaration that is not a literal, concealed in one that is, or in the declared type of variables or constants
    that is no literal *)
Inductive behind_declared (f : node) (i : Ast.ident) : Prop :=
| bd_type p h c nm decls q doc specs sd T tps t : f = NFile p h c nm decls → NGenDecl q TYPE doc specs ∈ decls →
    NTypeSpec sd T tps t ∈ specs → (plain_type t ∨ ∃ r x, t = NParenExpr r x) → NIdent i ∈ subnodes t → behind_declared f i
| bd_concealed p h c nm decls q doc specs sd T tps t : f = NFile p h c nm decls → NGenDecl q TYPE doc specs ∈ decls →
    NTypeSpec sd T tps t ∈ specs → literal_type t → concealed t i → behind_declared f i
| bd_value p h c nm decls q tok doc specs sd sc names t vs : f = NFile p h c nm decls → (tok = VAR ∨ tok = CONST) →
    NGenDecl q tok doc specs ∈ decls → NValueSpec sd sc names (Some t) vs ∈ specs → plain_type t → NIdent i ∈ subnodes t →
    behind_declared f i.

(** *** Proofs *)
Lemma concealed_sub t i : concealed t i → id_pos i ∈ poss t.
Proof.
  induction 1 as [t i _ _ H|p k v i _ IH|p k v i _ IH|p l e i _ IH|p x i _ IH|r p fields fd fc names t i Hf _ _ IH|r p fields fd fc names t i Hf _ _ IH].
  - by apply poss_sub.
  - up k. done.
  - up v. done.
  - apply (poss_child _ e); [|done]. destruct l; cbn; rewrite ?elem_of_cons, ?elem_of_nil; auto.
  - up x. done.
  - up (NFieldList fields). up (NField fd fc names t). up t. done.
  - up (NFieldList fields). up (NField fd fc names t). up t. done.
Qed.

Section Tv.
  Context (digest : string → string) (ti : tinfo).
  Notation tv := (tv digest ti).

  Lemma tv_fields_concealed iface cur sc fields fd fc names t i e :
    wf_pos (NFieldList fields) → NField fd fc names t ∈ fields → names ≠ [] → concealed t i → (0 < id_pos i)%Z →
    (∀ iface cur sc e, wf_pos t → e ∈ tv ANON iface cur sc t → e_pos e ≠ id_pos i) →
    e ∈ tv WALK iface cur sc (NFieldList fields) → e_pos e ≠ id_pos i.
  Proof.
    intros Hwf Hf Hn Hc Hpos IH He E. cbn [Pass1.tv] in He. apply elem_of_concat_map in He as (x & Hx & He).
    assert (x = NField fd fc names t) as ->.
    { eapply (wf_pos_children (NFieldList fields)); [done|done|done|exact Hpos|rewrite <- E; by eapply tv_poss|].
      up t. by apply concealed_sub. }
    assert (Hwd : wf_pos (NField fd fc names t)) by (by eapply wf_pos_child; [|exact Hwf]).
    assert (Hwt : wf_pos t) by (eapply wf_pos_child; [|exact Hwd]; cbn; rewrite elem_of_app; right; left).
    destruct names as [|n0 names]; [done|]. cbn [Pass1.tv] in He. apply elem_of_concat_map in He as (j & Hj & He).
    apply elem_of_cons in He as [->|He].
    - cbn in E. eapply (wf_pos_split _ (idents (n0 :: names)) [t]); [exact Hwd|reflexivity| |left|exact Hpos| |by apply concealed_sub].
      { apply elem_of_list_fmap. by exists j. } rewrite <- E. apply poss_ident.
    - by eapply IH.
  Qed.

  Lemma tv_concealed t i : concealed t i → (0 < id_pos i)%Z →
    ∀ iface cur sc e, wf_pos t → e ∈ tv ANON iface cur sc t → e_pos e ≠ id_pos i.
  Proof.
    intros H Hpos. induction H as [t i Hl Hw _|p k v i H IH|p k v i H IH|p l x i H IH|p x i H IH|r p fields fd fc names t i Hf Hn H IH|r p fields fd fc names t i Hf Hn H IH];
      intros iface cur sc e Hwf He.
    - exfalso. destruct t; cbn in *; try done; by apply elem_of_nil in He.
    - cbn [Pass1.tv] in He. apply elem_of_app in He as [He|He].
      + apply (IH Hpos _ _ _ _ (wf_pos_child (NMapType p k v) k ltac:(left) Hwf) He).
      + intros E. eapply (wf_pos_split _ [k] [v]); [exact Hwf|reflexivity|left|left|exact Hpos|by apply concealed_sub|].
        rewrite <- E. by eapply tv_poss.
    - cbn [Pass1.tv] in He. apply elem_of_app in He as [He|He].
      + intros E. eapply (wf_pos_split _ [k] [v]); [exact Hwf|reflexivity|left|left|exact Hpos| |by apply concealed_sub].
        rewrite <- E. by eapply tv_poss.
      + apply (IH Hpos _ _ _ _ (wf_pos_child (NMapType p k v) v ltac:(right; left) Hwf) He).
    - cbn [Pass1.tv] in He. eapply IH; [done| |exact He]. eapply wf_pos_child; [|exact Hwf].
      destruct l; cbn; rewrite ?elem_of_cons, ?elem_of_nil; auto.
    - cbn [Pass1.tv] in He. eapply IH; [done| |exact He]. eapply wf_pos_child; [|exact Hwf]. left.
    - cbn [Pass1.tv] in He. destruct (String.eqb _ _); [by apply elem_of_nil in He|].
      eapply (tv_fields_concealed iface cur _ fields fd fc names t i e); [|done|done|done|done| |exact He].
      + eapply wf_pos_child; [|exact Hwf]. left.
      + intros. by eapply IH.
    - cbn [Pass1.tv] in He. destruct (String.eqb _ _); [by apply elem_of_nil in He|].
      eapply (tv_fields_concealed iface cur _ fields fd fc names t i e); [|done|done|done|done| |exact He].
      + eapply wf_pos_child; [|exact Hwf]. left.
      + intros. by eapply IH.
  Qed.
  Lemma tv_walk_concealed t i iface cur sc e : literal_type t → concealed t i → (0 < id_pos i)%Z → wf_pos t →
    e ∈ tv WALK iface cur sc t → e_pos e ≠ id_pos i.
  Proof.
    intros Hl H Hpos Hwf He. inversion H as [? ? Hn| | | | |r p fields fd fc names t' ? Hf Hn Hc|r p fields fd fc names t' ? Hf Hn Hc]; subst; try done.
    - cbn [Pass1.tv] in He. eapply (tv_fields_concealed iface cur sc fields fd fc names t' i e); [|done|done|done|done| |exact He].
      + eapply wf_pos_child; [|exact Hwf]. left.
      + intros. by eapply tv_concealed.
    - cbn [Pass1.tv] in He. eapply (tv_fields_concealed iface cur sc fields fd fc names t' i e); [|done|done|done|done| |exact He].
      + eapply wf_pos_child; [|exact Hwf]. left.
      + intros. by eapply tv_concealed.
  Qed.
  Lemma tv_walk_other t iface cur sc : (plain_type t ∨ ∃ r x, t = NParenExpr r x) → tv WALK iface cur sc t = [].
  Proof. intros [H|(r & x & ->)]; [|done]. by destruct t. Qed.
End Tv.

Lemma behind_decl f i : behind_declared f i → ∃ p h c nm decls decl, f = NFile p h c nm decls ∧ decl ∈ decls ∧ id_pos i ∈ poss decl.
Proof.
  intros [p h c nm decls q doc specs sd T tps t -> Hd Hs _ Hi|p h c nm decls q doc specs sd T tps t -> Hd Hs _ Hi|p h c nm decls q tok doc specs sd sc names t vs -> _ Hd Hs _ Hi];
    exists p, h, c, nm, decls; eexists; (split; [done|]); (split; [exact Hd|]); (eapply spec_in_poss; [exact Hs|]).
  - up t. by apply poss_sub.
  - up t. by apply concealed_sub.
  - apply (poss_child _ t); [|by apply poss_sub]. cbn. rewrite elem_of_app. right. by left.
Qed.

Lemma behind_events digest ti fs path f i : wf_pos f → behind_declared f i → (0 < id_pos i)%Z →
  ∀ e, e ∈ file_events digest ti fs path f → e_pos e ≠ id_pos i.
Proof.
  intros Hwf Hb Hpos ev Hev E.
  destruct (behind_decl f i Hb) as (p0 & h0 & c0 & nm0 & decls0 & decl0 & Ef & Hd0 & Hp0).
  assert (Hd : ∃ d, d ∈ decls0 ∧ (ev ∈ tv digest ti WALK false None (new_scope path) d ∨ ev ∈ decl_events digest ti fs path d)).
  { rewrite Ef in Hev. unfold file_events in Hev. apply elem_of_app in Hev as [Hev|Hev].
    - cbn [tv] in Hev. apply elem_of_concat_map in Hev as (d & Hd & Hev). eauto.
    - apply elem_of_concat_map in Hev as (d & Hd & Hev). eauto. }
  destruct Hd as (d & Hd & Hd').
  assert (Hpd : id_pos i ∈ poss d).
  { rewrite <- E. destruct Hd' as [Hd'|Hd']; [by eapply tv_poss|]. unfold decl_events in Hd'. destruct d; try by apply elem_of_nil in Hd'.
    - destruct tok; first [by apply elem_of_nil in Hd'|by eapply vv_poss].
    - by eapply fv_poss. }
  assert (Hsame : ∀ d', d' ∈ decls0 → id_pos i ∈ poss d' → d = d').
  { intros d' Hd1 Hp'. eapply (wf_pos_children f); [done| | |exact Hpos|done|done]; rewrite Ef; by right. }
  assert (Hwd : wf_pos d) by (eapply wf_pos_child; [|exact Hwf]; rewrite Ef; by right).
  destruct Hb as [p h c nm decls q doc specs sd T tps t -> Hdd Hs Ht Hi|p h c nm decls q doc specs sd T tps t -> Hdd Hs Ht Hi|p h c nm decls q tok doc specs sd sc names t vs -> Htok Hdd Hs Ht Hi];
    injection Ef as <- <- <- <- <-.
  - apply poss_sub in Hi.
    assert (d = NGenDecl q TYPE doc specs) as ->.
    { apply Hsame; [done|]. eapply spec_in_poss; [exact Hs|]. up t. done. }
    destruct Hd' as [Hd'|Hd']; [|by apply elem_of_nil in Hd'].
    cbn [tv] in Hd'. apply elem_of_concat_map in Hd' as (s & Hs' & Hd').
    assert (s = NTypeSpec sd T tps t) as ->.
    { eapply (wf_pos_children (NGenDecl q TYPE doc specs)); [done|done|done|exact Hpos| |up t; done]. rewrite <- E. by eapply tv_poss. }
    assert (Hws : wf_pos (NTypeSpec sd T tps t)) by (eapply wf_pos_child; [|exact Hwd]; done).
    cbn [tv] in Hd'. apply elem_of_cons in Hd' as [->|Hd'].
    + cbn in E. eapply (wf_pos_split _ [NIdent T] [tps; t]); [exact Hws|reflexivity|left|right; left|exact Hpos| |exact Hi]. rewrite <- E. apply poss_ident.
    + rewrite tv_walk_other in Hd' by done. by apply elem_of_nil in Hd'.
  - pose proof (concealed_sub _ _ Hi) as Hi'.
    assert (d = NGenDecl q TYPE doc specs) as ->.
    { apply Hsame; [done|]. eapply spec_in_poss; [exact Hs|]. up t. done. }
    destruct Hd' as [Hd'|Hd']; [|by apply elem_of_nil in Hd'].
    cbn [tv] in Hd'. apply elem_of_concat_map in Hd' as (s & Hs' & Hd').
    assert (s = NTypeSpec sd T tps t) as ->.
    { eapply (wf_pos_children (NGenDecl q TYPE doc specs)); [done|done|done|exact Hpos| |up t; done]. rewrite <- E. by eapply tv_poss. }
    assert (Hws : wf_pos (NTypeSpec sd T tps t)) by (eapply wf_pos_child; [|exact Hwd]; done).
    cbn [tv] in Hd'. apply elem_of_cons in Hd' as [->|Hd'].
    + cbn in E. eapply (wf_pos_split _ [NIdent T] [tps; t]); [exact Hws|reflexivity|left|right; left|exact Hpos| |exact Hi']. rewrite <- E. apply poss_ident.
    + eapply (tv_walk_concealed digest ti t i); [done|exact Hi|done| |exact Hd'|exact E]. eapply wf_pos_child; [|exact Hws]. right. right. left.
  - apply poss_sub in Hi.
    assert (Hts : id_pos i ∈ poss (NValueSpec sd sc names (Some t) vs)).
    { apply (poss_child _ t); [|done]. cbn. rewrite elem_of_app. right. by left. }
    assert (d = NGenDecl q tok doc specs) as ->.
    { apply Hsame; [done|]. by eapply spec_in_poss. }
    assert (Hvv : ∃ st, ev ∈ (vv digest ti fs WALK (NGenDecl q tok doc specs) st).2).
    { destruct Hd' as [Hd'|Hd'].
      - cbn [tv] in Hd'. apply elem_of_concat_map in Hd' as (s & Hs' & Hd').
        assert (s = NValueSpec sd sc names (Some t) vs) as ->.
        { eapply (wf_pos_children (NGenDecl q tok doc specs)); [done|done|done|exact Hpos| |done]. rewrite <- E. by eapply tv_poss. }
        by apply elem_of_nil in Hd'.
      - unfold decl_events in Hd'. destruct Htok as [->| ->]; eauto. }
    destruct Hvv as [st Hvv].
    assert (Hsp : ∃ st', ev ∈ (vv digest ti fs WALK (NValueSpec sd sc names (Some t) vs) st').2).
    { assert (Hl : ∃ st', ev ∈ (vvl digest ti fs specs st').2) by (destruct Htok as [->| ->]; cbn [vv] in Hvv; eexists; exact Hvv).
      destruct Hl as [st' Hl]. apply vvl_ev in Hl as (x & st2 & Hx & Hl).
      assert (x = NValueSpec sd sc names (Some t) vs) as ->; [|by exists st2].
      eapply (wf_pos_children (NGenDecl q tok doc specs)); [done|done|done|exact Hpos| |done]. rewrite <- E. by eapply vv_poss. }
    destruct Hsp as [st' Hsp].
    assert (Hws : wf_pos (NValueSpec sd sc names (Some t) vs)) by (eapply wf_pos_child; [|exact Hwd]; done).
    assert (Hcase : (∃ j, j ∈ names ∧ e_pos ev = id_pos j) ∨ ∃ x, x ∈ vs ∧ e_pos ev ∈ poss x).
    { clear - Hsp Ht. cbn [vv] in Hsp. fold (vvl digest ti fs) in Hsp. destruct names as [|n0 names]; [by apply elem_of_nil in Hsp|].
      assert (Hv : vtype_action_of t = VSkip) by (by destruct t). rewrite Hv in Hsp.
      destruct (vvl digest ti fs vs _) as [st3 e3] eqn:Ev. cbn [snd] in Hsp. apply elem_of_app in Hsp as [H|H].
      - left. apply elem_of_list_fmap in H as (j & -> & Hj). by exists j.
      - right. assert (H' : ev ∈ (vvl digest ti fs vs (v_push st' (Desc (spec_scope_name fs (n0 :: names)) Scip.Meta))).2) by (by rewrite Ev).
        apply vvl_ev in H' as (x & st2 & Hx & H'). exists x. split; [done|]. by eapply vv_poss. }
    rewrite E in Hcase. destruct Hcase as [(j & Hj & Ej)|(x & Hx & Hxp)].
    + eapply (wf_pos_split _ (idents names) (t :: vs)); [exact Hws|reflexivity| |left|exact Hpos| |exact Hi].
      { apply elem_of_list_fmap. by exists j. } rewrite Ej. apply poss_ident.
    + eapply (wf_pos_split _ (idents names ++ [t]) vs); [exact Hws|cbn; by rewrite <- List.app_assoc| |exact Hx|exact Hpos|exact Hi|exact Hxp].
      rewrite elem_of_app. right. left.
Qed.

(** C63 fails for every member behind a slice, array, map, pointer, channel, function type or parentheses in the type
    of a type declaration; for every member behind a channel, function type or parentheses in the type of a field of a
    declared type; and for every member behind a slice, array, map, pointer, channel or function type in the declared
    type of a variable: its name is the definition of a symbol that is local to its document. *)
Theorem C63_behind_refuted : ∀ P msgs p f ti par i d,
  indexed P msgs → p ∈ pr_pkgs P → f ∈ p_syntax p → p_info p = Some ti → wf_pkg_pos p →
  (par, NIdent i) ∈ file_nodes f → behind_declared f i → (0 < id_pos i)%Z →
  visible P ti par i → no_switch ti i → ti_defs ti (id_ptr i) = Some d →
  ∃ s, is_local s ∧ defines P msgs p f i s.
Proof.
  intros P msgs p f ti par i d Hx Hp Hf Hti Hwf Hin Hsc Hpos V S Hd.
  destruct (numbering P msgs p f ti Hx Hp Hf Hti Hwf) as (ld & Hl & Hn).
  pose proof Hin as (l1 & l2 & Hs)%elem_of_list_split.
  eexists. split; [|eapply Hn; [exact Hs|eapply Hl; [exact Hin| |done..]]]; [apply local_name_local|].
  split; [by apply behind_decl|]. intros digest ti' fs path e. eapply behind_events; [by apply Hwf|done|done].
Qed.
Print Assumptions C63_behind_refuted.
