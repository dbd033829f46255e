(** Proofs about the first pass. *)
From Coq Require Import Ascii String.
From stdpp Require Import prelude strings gmap.
From Verif Require Import GoStr Scip GoTypes Ast Packages Symbols Document Lookup Pass1
  SpecSymbol SpecDecl P_Symbols.
Open Scope string_scope.
Open Scope list_scope.

Arguments poss : simpl never.

Lemma elem_of_concat_map {A B} (f : A → list B) (l : list A) (b : B) :
  b ∈ List.concat (map f l) ↔ ∃ a, a ∈ l ∧ b ∈ f a.
Proof.
  induction l as [|x l IH]; cbn.
  - split; [by intros ?%elem_of_nil|]. by intros (a & ?%elem_of_nil & _).
  - rewrite elem_of_app, IH. split.
    + intros [H|(a & Ha & H)]; [exists x|exists a]; split; auto; by constructor.
    + intros (a & [->|Ha]%elem_of_cons & H); [by left|right; by exists a].
Qed.

Lemma subnodes_self n : n ∈ subnodes n.
Proof. destruct n; apply elem_of_list_here. Qed.
Lemma poss_self n : node_pos n ∈ poss n.
Proof. apply elem_of_list_fmap. exists n. split; [done|apply subnodes_self]. Qed.

Lemma concat_idents (l : list ident) : List.concat (map subnodes (idents l)) = idents l.
Proof. unfold idents. induction l as [|i l IH]; [done|]. cbn. by rewrite IH. Qed.

Lemma subnodes_eq n : subnodes n = n :: List.concat (map subnodes (node_children n)).
Proof.
  destruct n; cbn [node_children subnodes]; f_equal;
    rewrite ?map_app, ?List.concat_app, ?concat_idents; cbn [map List.concat];
    rewrite ?List.app_nil_r; try done.
  - destruct len; cbn; rewrite ?List.app_nil_r; done.
  - destruct name; cbn; done.
  - destruct typ; cbn; rewrite ?List.app_nil_r; done.
  - destruct recv, body; cbn [opt_node map List.concat]; rewrite ?List.app_nil_r; done.
Qed.

Lemma subnodes_elem n m :
  m ∈ subnodes n ↔ m = n ∨ ∃ c, c ∈ node_children n ∧ m ∈ subnodes c.
Proof. rewrite subnodes_eq, elem_of_cons, elem_of_concat_map. done. Qed.
Lemma subnodes_child n c m : c ∈ node_children n → m ∈ subnodes c → m ∈ subnodes n.
Proof. intros. apply subnodes_elem. right. by exists c. Qed.
Lemma poss_child n c p : c ∈ node_children n → p ∈ poss c → p ∈ poss n.
Proof.
  intros Hc (m & -> & Hm)%elem_of_list_fmap. apply elem_of_list_fmap.
  exists m. split; [done|]. by apply (subnodes_child n c).
Qed.

Lemma poss_ident i : id_pos i ∈ poss (NIdent i).
Proof. apply (poss_self (NIdent i)). Qed.

Ltac child_mem := cbn [node_children opt_node]; unfold idents;
  rewrite ?elem_of_app, ?elem_of_cons, ?elem_of_list_fmap; eauto 8.
(** solve [p ∈ poss parent] from a proof for a child *)
Ltac up c := apply (poss_child _ c); [child_mem|].

Lemma ident_of_type_expr_poss t i : i ∈ ident_of_type_expr t → id_pos i ∈ poss t.
Proof.
  induction t; cbn [ident_of_type_expr]; try (by intros ?%elem_of_nil).
  - intros ->%elem_of_list_singleton. apply poss_ident.
  - intros H. up t. auto.
  - intros H. up t. auto.
  - intros H. up t1. auto.
  - intros H. up t. auto.
  - intros ->%elem_of_list_singleton. up (NIdent sel). apply poss_ident.
Qed.

Section Pos.
  Context (digest : string → string) (ti : tinfo) (fs : fset).
  Notation tv := (tv digest ti).
  Notation vv := (vv digest ti fs).

  Lemma tv_poss n : ∀ m iface cur sc e, e ∈ tv m iface cur sc n → e_pos e ∈ poss n.
  Proof.
    induction n using node_ind'; intros md iface cur sc ev;
      destruct md; cbn [Pass1.tv]; try (by intros ?%elem_of_nil).
    - (* NField WALK *)
      destruct ns as [|i0 ns].
      + destruct iface.
        * intros He. up n. eauto.
        * intros (i & -> & Hi)%elem_of_list_fmap. up n. cbn. by apply ident_of_type_expr_poss.
      + rewrite elem_of_concat_map. intros (i & Hi & [->|He]%elem_of_cons).
        * cbn. up (NIdent i). apply poss_ident.
        * up n. eauto.
    - (* FieldList *)
      rewrite elem_of_concat_map. intros (x & Hx & He). rewrite Forall_forall in H.
      up x. eauto.
    - intros He. up n. eauto.
    - destruct (String.eqb _ _); [by intros ?%elem_of_nil|]. intros He. up n. eauto.
    - intros He. up n. eauto.
    - destruct (String.eqb _ _); [by intros ?%elem_of_nil|]. intros He. up n. eauto.
    - rewrite elem_of_app. intros [He|He]; [up n1|up n2]; eauto.
    - intros He. up n. eauto.
    - intros He. up n. eauto.
    - (* TypeSpec *)
      intros [->|He]%elem_of_cons; [cbn; up (NIdent n1); apply poss_ident|]. up n3. eauto.
    - rewrite elem_of_concat_map. intros (x & Hx & He). rewrite Forall_forall in H. up x. eauto.
    - rewrite elem_of_concat_map. intros (x & Hx & He). rewrite Forall_forall in H. up x. eauto.
  Qed.

  Definition vvl := fix vvs (l : list node) (st : vstate) : vstate * list event :=
      match l with
      | [] => (st, [])
      | x :: l' => seq (vv WALK x st) (vvs l')
      end.
  Definition vvnames (n t : node) :=
    fix go (l : list ident) (st : vstate) : vstate * list event :=
               match l with
               | [] => (st, [])
               | i :: l' =>
                   seq (let '(st', e) := vv ANON t st in
                        (st', Ev (v_scope st ++ [Desc (id_name i) Term]) (Some n) i (id_pos i) :: e))
                       (go l')
               end.

  Lemma seq_ev (r : vstate * list event) k e :
    e ∈ (seq r k).2 → e ∈ r.2 ∨ e ∈ (k r.1).2.
  Proof.
    unfold seq. destruct r as [st e1]. cbn. destruct (k st) as [st' e2]. cbn.
    by rewrite elem_of_app.
  Qed.
  Lemma seq_st (r : vstate * list event) k : (seq r k).1 = (k r.1).1.
  Proof. unfold seq. destruct r as [st e1]. cbn. by destruct (k st). Qed.
  Lemma seq_evs (r : vstate * list event) k : (seq r k).2 = r.2 ++ (k r.1).2.
  Proof. unfold seq. destruct r as [st e1]. cbn. by destruct (k st). Qed.

  Lemma vvl_ev l : ∀ st e, e ∈ (vvl l st).2 → ∃ x st', x ∈ l ∧ e ∈ (vv WALK x st').2.
  Proof.
    induction l as [|x l IH]; intros st e; cbn; [by intros ?%elem_of_nil|].
    intros [H|H]%seq_ev.
    - exists x, st. split; [by constructor|done].
    - apply IH in H as (y & st' & Hy & H). exists y, st'. split; [by constructor|done].
  Qed.

  Lemma vvl_poss n l :
    Forall (λ x, ∀ m st e, e ∈ (vv m x st).2 → e_pos e ∈ poss x) l →
    (∀ x, x ∈ l → x ∈ node_children n) →
    ∀ st e, e ∈ (vvl l st).2 → e_pos e ∈ poss n.
  Proof.
    intros HF Hc st e (x & st' & Hx & He)%vvl_ev. rewrite Forall_forall in HF.
    apply (poss_child n x); eauto.
  Qed.

  Lemma vvnames_ev n t l : ∀ st e, e ∈ (vvnames n t l st).2 →
    ∃ i st', i ∈ l ∧ (e = Ev (v_scope st' ++ [Desc (id_name i) Term]) (Some n) i (id_pos i)
                      ∨ e ∈ (vv ANON t st').2).
  Proof.
    induction l as [|i l IH]; intros st e; cbn [vvnames]; [by intros ?%elem_of_nil|].
    intros [H|H]%seq_ev.
    - destruct (vv ANON t st) as [st' e'] eqn:E. cbn in H. apply elem_of_cons in H as [->|H].
      + exists i, st. split; [by constructor|by left].
      + exists i, st. split; [by constructor|]. right. by rewrite E.
    - apply IH in H as (j & st' & Hj & H). exists j, st'. split; [by constructor|done].
  Qed.
  Lemma vvnames_scope n t l :
    (∀ st, v_scope (vv ANON t st).1 = v_scope st) →
    ∀ st, v_scope (vvnames n t l st).1 = v_scope st.
  Proof.
    intros Ht. induction l as [|i l IH]; intros st; cbn [vvnames]; [done|].
    rewrite seq_st, IH. specialize (Ht st). by destruct (vv ANON t st).
  Qed.
  Lemma anon_evs (r : vstate * list event) : (let '(st', e) := r in (v_pop st', e)).2 = r.2.
  Proof. by destruct r. Qed.
  Lemma anon_st (r : vstate * list event) : (let '(st', e) := r in (v_pop st', e)).1 = v_pop r.1.
  Proof. by destruct r. Qed.

  Lemma vv_valuespec_ev d c ns t vs st e :
    e ∈ (vv WALK (NValueSpec d c ns t vs) st).2 →
    (∃ i, i ∈ ns ∧ e = Ev (v_scope st ++ [Desc (id_name i) Term]) (v_cur st) i (id_pos i)) ∨
    (∃ t0 st', t = Some t0 ∧ e ∈ (vv WALK t0 st').2) ∨
    (∃ x st', x ∈ vs ∧ e ∈ (vv WALK x st').2).
  Proof.
    cbn [Pass1.vv]; fold vvl.
    destruct ns as [|i0 ns0]; [by intros ?%elem_of_nil|].
    set (st1 := v_push st _). set (names := i0 :: ns0).
    set (r := match t with Some _ => _ | None => _ end).
    assert (Hr : e ∈ r.2 → (∃ t0 st', t = Some t0 ∧ e ∈ (vv WALK t0 st').2) ∨
       (∃ x st', x ∈ vs ∧ e ∈ (vv WALK x st').2)).
    { subst r. destruct t as [t|].
      - destruct (vtype_action_of t).
        + rewrite anon_evs. intros He%vvl_ev. by right.
        + intros [He|He]%seq_ev; [left; by eauto|]. right.
          rewrite anon_evs in He. by apply vvl_ev in He.
        + cbn. by intros ?%elem_of_nil.
      - rewrite anon_evs. intros He%vvl_ev. by right. }
    destruct r as [st' e']. cbn [snd] in *. rewrite elem_of_app.
    intros [(i & -> & Hi)%elem_of_list_fmap|He]; [left; eauto|right; eauto].
  Qed.
  Lemma vv_valuespec_names d c ns t vs st i :
    i ∈ ns →
    Ev (v_scope st ++ [Desc (id_name i) Term]) (v_cur st) i (id_pos i)
      ∈ (vv WALK (NValueSpec d c ns t vs) st).2.
  Proof.
    intros Hi. cbn [Pass1.vv]. destruct ns as [|i0 ns0]; [by apply elem_of_nil in Hi|].
    destruct (match t with Some _ => _ | None => _ end) as [st' e'].
    cbn [snd]. apply elem_of_app. left. apply elem_of_list_fmap. by exists i.
  Qed.

  Lemma vv_poss n : ∀ m st e, e ∈ (vv m n st).2 → e_pos e ∈ poss n.
  Proof.
    induction n using node_ind'; intros md st ev; destruct md; cbn [Pass1.vv];
      fold vvl;
      try (by intros ?%elem_of_nil).
    - (* NField WALK *)
      destruct ns as [|i0 ns0].
      + cbn. intros (i & -> & Hi)%elem_of_list_fmap. cbn. up n. apply poss_self.
      + change (ev ∈ (vvnames (NField d c (i0 :: ns0) n) n (i0 :: ns0) st).2
                → e_pos ev ∈ poss (NField d c (i0 :: ns0) n)).
        intros (i & st' & Hi & [->|He])%vvnames_ev.
        * cbn. up (NIdent i). apply poss_ident.
        * up n. eauto.
    - eapply vvl_poss; eauto.
    - intros He. up n. eauto.
    - destruct (String.eqb _ _); [by intros ?%elem_of_nil|]. rewrite anon_evs.
      intros He. up n. eauto.
    - intros He. up n. eauto.
    - destruct (String.eqb _ _); [by intros ?%elem_of_nil|]. rewrite anon_evs.
      intros He. up n. eauto.
    - intros [He|[He|He]%seq_ev]%seq_ev; [up n1|up n2|up n3]; eauto.
    - intros [He|He]%seq_ev; [up n1|up n2]; eauto.
    - intros [He|He]%seq_ev; [up n1|up n2]; eauto.
    - intros [He|He]%seq_ev.
      + destruct l as [x|]; [|by apply elem_of_nil in He]. up x. cbn in *; eauto.
      + up n. eauto.
    - intros He. up n. eauto.
    - intros He. up n. eauto.
    - intros He. up n. eauto.
    - intros He. up n. eauto.
    - intros He. up n. eauto.
    - intros He. up n. eauto.
    - intros [He|He]%seq_ev; [up n1|up n2]; eauto.
    - intros [He|He]%seq_ev; [up n1|up n2]; eauto.
    - intros [He|He]%seq_ev; [up n; eauto|]. eapply vvl_poss; eauto. intros; child_mem.
    - intros He. up n. eauto.
    - intros [He|He]%seq_ev; [up n1|up n2]; eauto.
    - eapply vvl_poss; eauto.
    - intros [He|He]%seq_ev; [up n2|up n3]; eauto.
    - (* ValueSpec *)
      intros He0. apply (vv_valuespec_ev d c ns t vs st) in He0
        as [(i & Hi & ->)|[(t0 & st' & -> & He)|(x & st' & Hx & He)]].
      + cbn. up (NIdent i). apply poss_ident.
      + up t0. eauto.
      + rewrite Forall_forall in H0. up x. eauto.
    - destruct k; try (by intros ?%elem_of_nil); eapply vvl_poss; eauto.
    - intros [He|[He|He]%seq_ev]%seq_ev.
      + destruct r as [x|]; [|by apply elem_of_nil in He]. up x. cbn in *; eauto.
      + up n0. eauto.
      + destruct b as [x|]; [|by apply elem_of_nil in He]. up x. cbn in *; eauto.
    - eapply vvl_poss; eauto. intros; child_mem.
    - eapply vvl_poss; eauto.
  Qed.

  (** scope discipline of varVisitor when every declared type has a common form *)
  Lemma common_child n c : c ∈ node_children n → common_value_types n → common_value_types c.
  Proof. intros Hc H d cm ns t vs Hin. apply (H d cm ns t vs). by apply (subnodes_child n c). Qed.

  Lemma vvl_scope n l :
    Forall (λ x, common_value_types x → ∀ m st, v_scope (vv m x st).1 = v_scope st) l →
    common_value_types n → (∀ x, x ∈ l → x ∈ node_children n) →
    ∀ st, v_scope (vvl l st).1 = v_scope st.
  Proof.
    intros HF Hn. induction HF as [|x l Hx HF IH]; intros Hc st; [done|].
    cbn. rewrite seq_st, IH; [|intros; apply Hc; by constructor].
    apply Hx. apply (common_child n); [apply Hc; by constructor|done].
  Qed.

  Ltac cc c := match goal with H : common_value_types ?n |- _ =>
    apply (common_child n c); [child_mem|done] end.

  Lemma removelast_snoc {A} (l : list A) x : removelast (l ++ [x]) = l.
  Proof.
    induction l as [|y l IH]; [done|]. cbn. rewrite IH. by destruct l.
  Qed.

  Lemma vv_scope n : common_value_types n → ∀ m st, v_scope (vv m n st).1 = v_scope st.
  Proof.
    induction n using node_ind'; intros Hcv md st; destruct md; cbn [Pass1.vv];
      fold vvl; try done.
    - (* NField WALK *)
      destruct ns as [|i0 ns0]; [done|].
      change (v_scope (vvnames (NField d c (i0 :: ns0) n) n (i0 :: ns0) st).1 = v_scope st).
      apply vvnames_scope. intros. apply IHn. cc n.
    - by eapply vvl_scope.
    - apply IHn. cc n.
    - destruct (String.eqb _ _); [done|]. rewrite anon_st. cbn [v_pop v_scope]. unfold scope_pop.
      rewrite IHn by cc n. apply removelast_snoc.
    - apply IHn. cc n.
    - destruct (String.eqb _ _); [done|]. rewrite anon_st. cbn [v_pop v_scope]. unfold scope_pop.
      rewrite IHn by cc n. apply removelast_snoc.
    - rewrite !seq_st. rewrite IHn3, IHn2, IHn1; [done|cc n1|cc n2|cc n3].
    - rewrite !seq_st. rewrite IHn2, IHn1; [done|cc n1|cc n2].
    - rewrite !seq_st. rewrite IHn2, IHn1; [done|cc n1|cc n2].
    - rewrite !seq_st. rewrite IHn by cc n. destruct l as [x|]; [|done]. apply H. cc x.
    - apply IHn. cc n.
    - apply IHn. cc n.
    - apply IHn. cc n.
    - apply IHn. cc n.
    - apply IHn. cc n.
    - apply IHn. cc n.
    - rewrite !seq_st. rewrite IHn2, IHn1; [done|cc n1|cc n2].
    - rewrite !seq_st. rewrite IHn2, IHn1; [done|cc n1|cc n2].
    - rewrite !seq_st. erewrite vvl_scope; [apply IHn; cc n|done|done|intros; child_mem].
    - apply IHn. cc n.
    - rewrite !seq_st. rewrite IHn2, IHn1; [done|cc n1|cc n2].
    - by eapply vvl_scope.
    - rewrite !seq_st. rewrite IHn2, IHn1; [done|cc n2|cc n3].
    - (* ValueSpec *)
      assert (Hvs : ∀ st, v_scope (vvl vs st).1 = v_scope st).
      { eapply vvl_scope; [done|done|]. intros; child_mem. }
      assert (Hfin : ∀ st1, v_scope (let '(st3, e3) := vvl vs (v_push st1
          (Desc (spec_scope_name fs ns) Meta)) in (v_pop st3, e3)).1 = v_scope st1).
      { intros st1. specialize (Hvs (v_push st1 (Desc (spec_scope_name fs ns) Meta))).
        destruct (vvl vs _) as [st3 e3]. cbn [fst v_pop v_scope v_push] in *. rewrite Hvs.
        apply removelast_snoc. }
      destruct ns as [|i0 ns0]; [done|]. destruct t as [t|].
      + assert (Hc : common_type_form t).
        { eapply (Hcv d c (i0 :: ns0) t vs). apply subnodes_self. }
        destruct (vtype_action_of t) eqn:Ha.
        * specialize (Hfin st). destruct (let '(_, _) := _ in _) as [a b]; done.
        * assert (v_scope (seq (vv WALK t (v_push st (Desc (spec_scope_name fs (i0 :: ns0)) Meta)))
             (λ st2, let '(st3, e3) := vvl vs st2 in (v_pop st3, e3))).1 = v_scope st) as Hs.
          { rewrite seq_st.
            specialize (Hvs (vv WALK t (v_push st (Desc (spec_scope_name fs (i0 :: ns0)) Meta))).1).
            destruct (vvl vs _) as [st3 e3]. cbn [fst v_pop v_scope v_push] in *.
            rewrite Hvs. rewrite H by cc t. apply removelast_snoc. }
          destruct (seq _ _) as [a b]; done.
        * by destruct t.
      + specialize (Hfin st). destruct (let '(_, _) := _ in _) as [a b]; done.
    - destruct k; try done; cbn [v_scope]; erewrite vvl_scope; eauto.
    - rewrite !seq_st.
      assert (∀ st, v_scope (match b with Some x => vv WALK x st | None => (st, []) end).1 = v_scope st) as ->.
      { intros. destruct b as [x|]; [|done]. apply H0. cc x. }
      rewrite IHn by cc n0. destruct r as [x|]; [|done]. apply H. cc x.
    - eapply vvl_scope; eauto. intros; child_mem.
    - by eapply vvl_scope.
  Qed.
End Pos.

(** fv *)
Section FV.
  Definition fvl (sc : list descriptor) := fix fvs (l : list node) :=
    match l with [] => [] | x :: l' => fv sc x ++ fvs l' end.
  Lemma fvl_ev sc l e : e ∈ fvl sc l → ∃ x, x ∈ l ∧ e ∈ fv sc x.
  Proof.
    induction l as [|x l IH]; cbn; [by intros ?%elem_of_nil|]. rewrite elem_of_app.
    intros [H|(y & Hy & H)%IH]; eexists; (split; [by constructor|done]).
  Qed.
  Lemma fvl_poss n sc l e :
    Forall (λ x, ∀ sc e, e ∈ fv sc x → e_pos e ∈ poss x) l →
    (∀ x, x ∈ l → x ∈ node_children n) → e ∈ fvl sc l → e_pos e ∈ poss n.
  Proof.
    intros HF Hc (x & Hx & He)%fvl_ev. rewrite Forall_forall in HF.
    apply (poss_child n x); eauto.
  Qed.
  Lemma iface_method_events_poss sc m e : e ∈ iface_method_events sc m → e_pos e ∈ poss m.
  Proof.
    destruct m; cbn [iface_method_events]; try (by intros ?%elem_of_nil).
    rewrite elem_of_concat_map. intros (f & Hf & He). up f.
    destruct f; try (by apply elem_of_nil in He).
    apply elem_of_list_fmap in He as (i & -> & Hi). cbn. up (NIdent i). apply poss_ident.
  Qed.
  Lemma fv_poss n : ∀ sc e, e ∈ fv sc n → e_pos e ∈ poss n.
  Proof.
    induction n using node_ind'; intros sc ev; cbn [fv]; fold (fvl sc);
      rewrite ?elem_of_app; try (by intros ?%elem_of_nil);
      try (by intros He; eapply fvl_poss; eauto; intros; child_mem);
      try (by intros He; up n; eauto);
      try (by intros [He|He]; [up n1|up n2]; eauto).
    - intros He. up n. by eapply iface_method_events_poss.
    - intros He. up n3. eauto.
    - intros [He|He]; [|up n; eauto]. destruct l as [x|]; [|by apply elem_of_nil in He].
      up x. cbn in *; eauto.
    - intros [He|He]; [up n; eauto|]. eapply fvl_poss; eauto. intros; child_mem.
    - intros [He|He]; [up n2|up n3]; eauto.
    - intros [He|He].
      + destruct t as [x|]; [|by apply elem_of_nil in He]. up x. cbn in *; eauto.
      + eapply fvl_poss; eauto. intros; child_mem.
    - intros [->|He]%elem_of_cons; [cbn; up (NIdent n); apply poss_ident|]. up n0. eauto.
  Qed.
End FV.

(** separation *)
Lemma pairwise_sep_eq l a b p :
  pairwise_sep l → a ∈ l → b ∈ l → (0 < p)%Z → p ∈ poss a → p ∈ poss b → a = b.
Proof.
  induction l as [|x l IH]; cbn; [by intros _ ?%elem_of_nil|].
  intros [Hx Hl] [->|Ha]%elem_of_cons [->|Hb]%elem_of_cons Hp Hpa Hpb; auto.
  - exfalso. by eapply (Hx b).
  - exfalso. by eapply (Hx a).
Qed.
Lemma wf_pos_child n c : c ∈ node_children n → wf_pos n → wf_pos c.
Proof. intros Hc H m Hm. apply H. by apply (subnodes_child n c). Qed.
Lemma wf_pos_children n a b p :
  wf_pos n → a ∈ node_children n → b ∈ node_children n → (0 < p)%Z →
  p ∈ poss a → p ∈ poss b → a = b.
Proof. intros H. apply pairwise_sep_eq. apply H. apply subnodes_self. Qed.

(** two children that are adjacent segments of the child list cannot share a position *)
Lemma pairwise_sep_app l1 l2 a b p :
  pairwise_sep (l1 ++ l2) → a ∈ l1 → b ∈ l2 → (0 < p)%Z → p ∈ poss a → p ∈ poss b → False.
Proof.
  induction l1 as [|x l1 IH]; cbn; [by intros _ ?%elem_of_nil|].
  intros [Hx Hl] [->|Ha]%elem_of_cons Hb Hp Hpa Hpb; [|by eapply IH].
  eapply (Hx b); [|done..]. apply elem_of_app. by right.
Qed.
Lemma wf_pos_split n l1 l2 a b p :
  wf_pos n → node_children n = l1 ++ l2 → a ∈ l1 → b ∈ l2 → (0 < p)%Z →
  p ∈ poss a → p ∈ poss b → False.
Proof.
  intros H E. apply pairwise_sep_app. rewrite <- E. apply H. apply subnodes_self.
Qed.
Lemma poss_ident_inv i p : p ∈ poss (NIdent i) → p = id_pos i.
Proof. unfold poss. cbn. by intros ->%elem_of_list_singleton. Qed.
Lemma wf_pos_names n (ns : list ident) rest i j :
  wf_pos n → node_children n = idents ns ++ rest → i ∈ ns → j ∈ ns → (0 < id_pos i)%Z →
  id_pos j = id_pos i → j = i.
Proof.
  intros H E Hi Hj Hp Hij.
  assert (NIdent j = NIdent i) as Heq; [|by injection Heq].
  eapply (wf_pos_children n); [done| | |exact Hp| |];
    [rewrite E, elem_of_app; left; by apply elem_of_list_fmap_1..| |apply poss_ident].
  rewrite <- Hij. apply poss_ident.
Qed.

Lemma wf_typespec_fields sd T tps r p f :
  wf_pos (NTypeSpec sd T tps (NStructType r p f)) → wf_pos f.
Proof.
  intros H. apply (wf_pos_child (NStructType r p f)); [left|].
  apply (wf_pos_child _ (NStructType r p f)) in H; [done|right; right; left].
Qed.
Lemma wf_typespec_methods sd T tps r p f :
  wf_pos (NTypeSpec sd T tps (NInterfaceType r p f)) → wf_pos f.
Proof.
  intros H. apply (wf_pos_child (NInterfaceType r p f)); [left|].
  apply (wf_pos_child _ (NInterfaceType r p f)) in H; [done|right; right; left].
Qed.

Lemma embedded_ident_list t i : embedded_ident t i → ident_of_type_expr t = [i].
Proof. induction 1; cbn; auto. Qed.
Lemma recv_ident_base t i : recv_ident t i → base_type_name t = Some (id_name i).
Proof. induction 1; cbn; auto. Qed.

Lemma spec_in_poss s specs p tok doc x : s ∈ specs → x ∈ poss s → x ∈ poss (NGenDecl p tok doc specs).
Proof. intros Hs Hx. by up s. Qed.

Lemma decl_declares_poss d i k par : decl_declares d i k par → id_pos i ∈ poss d.
Proof.
  destruct 1.
  - eapply spec_in_poss; [done|]. up (NIdent nm). apply poss_ident.
  - up (NIdent nm). apply poss_ident.
  - up (NIdent nm). apply poss_ident.
  - eapply spec_in_poss; [done|]. up (NIdent nm). apply poss_ident.
  - eapply spec_in_poss; [done|]. up (NStructType ptr sp (NFieldList fields)). up (NFieldList fields).
    up (NField fd fc names ft). up (NIdent nm). apply poss_ident.
  - eapply spec_in_poss; [done|]. up (NStructType ptr sp (NFieldList fields)). up (NFieldList fields).
    up (NField fd fc [] ft). up ft. apply ident_of_type_expr_poss.
    rewrite (embedded_ident_list _ _ H1). by apply elem_of_list_singleton.
  - eapply spec_in_poss; [done|]. up (NInterfaceType ptr sp (NFieldList fields)). up (NFieldList fields).
    up (NField fd fc names ft). up (NIdent nm). apply poss_ident.
Qed.

Section Decl.
  Context (digest : string → string) (ti : tinfo) (fs : fset) (path : string).
  Notation tv := (tv digest ti).
  Notation vv := (vv digest ti fs).
  Notation vvl := (vvl digest ti fs).
  Notation decl_events := (decl_events digest ti fs path).

  (** the calls made for one declaration, by both walks over the file *)
  Definition decl_all (d : node) : list event :=
    tv WALK false None (new_scope path) d ++ decl_events d.

  (** the state in which a spec of a group is visited *)
  Lemma vvl_ev_scope n l :
    common_value_types n → (∀ x, x ∈ l → x ∈ node_children n) →
    ∀ st e, e ∈ (vvl l st).2 →
      ∃ x st', x ∈ l ∧ v_scope st' = v_scope st ∧ e ∈ (vv WALK x st').2.
  Proof.
    intros Hn. induction l as [|x l IH]; intros Hc st e; cbn; [by intros ?%elem_of_nil|].
    intros [H|H]%seq_ev.
    - exists x, st. split; [by constructor|done].
    - apply IH in H as (y & st' & Hy & Hs & H); [|intros; apply Hc; by constructor].
      exists y, st'. split; [by constructor|split; [|done]]. rewrite Hs. apply vv_scope.
      apply (common_child n); [apply Hc; by constructor|done].
  Qed.
  Lemma vvl_in_scope n l x :
    common_value_types n → (∀ x, x ∈ l → x ∈ node_children n) →
    x ∈ l → ∀ st, ∃ st', v_scope st' = v_scope st ∧
      (∀ e, e ∈ (vv WALK x st').2 → e ∈ (vvl l st).2).
  Proof.
    intros Hn. induction l as [|y l IH]; intros Hc Hx st; [by apply elem_of_nil in Hx|].
    cbn. rewrite seq_evs. apply elem_of_cons in Hx as [->|Hx].
    - exists st. split; [done|]. intros e He. apply elem_of_app. by left.
    - destruct (IH (λ z Hz, Hc z (elem_of_list_further _ _ _ Hz)) Hx (vv WALK y st).1) as (st' & Hs & H).
      exists st'. split.
      + rewrite Hs. apply vv_scope. apply (common_child n); [apply Hc; by constructor|done].
      + intros e He. apply elem_of_app. right. auto.
  Qed.

  (** the events of the fields of a named struct or interface type *)
  Lemma field_event fields cur sc0 iface fd fc names ft nm e :
    wf_pos (NFieldList fields) → NField fd fc names ft ∈ fields → nm ∈ names →
    (0 < id_pos nm)%Z →
    e ∈ List.concat (map (tv WALK iface cur sc0) fields) → e_pos e = id_pos nm →
    e_descs e = sc0 ++ [Desc (id_name nm) Term] ∧ e_ident e = nm ∧ e_parent e = Some (NField fd fc names ft).
  Proof.
    intros Hwf Hf Hnm Hp He Hpos.
    apply elem_of_concat_map in He as (f' & Hf' & He).
    assert (f' = NField fd fc names ft) as ->.
    { eapply (wf_pos_children (NFieldList fields)); [done|done|done|exact Hp| |].
      - rewrite <- Hpos. by eapply tv_poss.
      - up (NIdent nm). apply poss_ident. }
    assert (wf_pos (NField fd fc names ft)) as Hwf' by (eapply wf_pos_child; [|exact Hwf]; done).
    cbn [Pass1.tv] in He. destruct names as [|n0 names0]; [by apply elem_of_nil in Hnm|].
    apply elem_of_concat_map in He as (j & Hj & [->|He]%elem_of_cons).
    - cbn in Hpos |- *. assert (j = nm) as ->; [|done].
      eapply wf_pos_names; [exact Hwf'|reflexivity|done..].
    - exfalso. eapply (wf_pos_split (NField fd fc (n0 :: names0) ft));
        [done|reflexivity| |by apply elem_of_list_singleton|exact Hp|apply poss_ident|].
      + apply elem_of_list_fmap_1. done.
      + rewrite <- Hpos. by eapply tv_poss.
  Qed.
  Lemma field_event_in fields cur sc0 iface fd fc names ft nm :
    NField fd fc names ft ∈ fields → nm ∈ names →
    Ev (sc0 ++ [Desc (id_name nm) Term]) (Some (NField fd fc names ft)) nm (id_pos nm)
      ∈ tv WALK iface cur sc0 (NFieldList fields).
  Proof.
    intros Hf Hnm. cbn [Pass1.tv]. apply elem_of_concat_map. eexists. split; [done|].
    cbn [Pass1.tv]. destruct names as [|n0 names0]; [by apply elem_of_nil in Hnm|].
    apply elem_of_concat_map. exists nm. split; [done|by constructor].
  Qed.

  Definition is_value_key (k : dkey) : bool := match k with KeyValue _ => true | _ => false end.

  Lemma vvl_app l1 l2 st : vvl (l1 ++ l2) st = seq (vvl l1 st) (vvl l2).
  Proof.
    revert st. induction l1 as [|x l1 IH]; intros st; cbn.
    - by destruct (vvl l2 st).
    - unfold seq. destruct (vv WALK x st) as [st1 e1]. rewrite IH. unfold seq. destruct (vvl l1 st1) as [st2 e2].
      destruct (vvl l2 st2) as [st3 e3]. by rewrite List.app_assoc.
  Qed.
  Lemma vvl_scope_all l st : (∀ x, x ∈ l → common_value_types x) → v_scope (vvl l st).1 = v_scope st.
  Proof.
    revert st. induction l as [|x l IH]; intros st Hc; [done|]. cbn. rewrite seq_st, IH; [|intros; apply Hc; by right].
    apply vv_scope, Hc. left.
  Qed.
  (** the calls made for one spec of a group, in the state left by the earlier ones *)
  Lemma vvl_spec n l1 s l2 st e : wf_pos n → node_children n = l1 ++ s :: l2 → (0 < e_pos e)%Z → e_pos e ∈ poss s →
    e ∈ (vvl (l1 ++ s :: l2) st).2 → e ∈ (vv WALK s (vvl l1 st).1).2.
  Proof.
    intros Hwf Hn Hp Hs. rewrite vvl_app, seq_evs, elem_of_app. cbn. rewrite seq_evs, elem_of_app. intros [H|[H|H]]; [|done|].
    - exfalso. apply vvl_ev in H as (x & st' & Hx & H).
      eapply (wf_pos_split n l1 (s :: l2) x s); [done|done|done|by left|exact Hp| |done]. by eapply vv_poss.
    - exfalso. apply vvl_ev in H as (x & st' & Hx & H).
      eapply (wf_pos_split n (l1 ++ [s]) l2 s x); [done|by rewrite <- List.app_assoc| |done|exact Hp|done|by eapply vv_poss].
      apply elem_of_app. right. left.
  Qed.
  (** the condition on a value declaration that makes its symbol right *)
  Definition decl_before (d : node) (i : ident) (Q : node → Prop) : Prop :=
    ∀ p tok doc l1 sd sc names t vs l2 s, d = NGenDecl p tok doc (l1 ++ NValueSpec sd sc names t vs :: l2) → i ∈ names → s ∈ l1 → Q s.

  Lemma decl_all_unique d i k par e :
    wf_pos d → decl_declares d i k par → (is_value_key k = true → decl_before d i common_value_types) →
    (0 < id_pos i)%Z → e ∈ decl_all d → e_pos e = id_pos i →
    e_descs e = key_descriptors path k ∧ e_ident e = i ∧
    (is_value_key k = false → e_parent e = Some par).
  Proof.
    intros Hwf Hd Hcv Hp He Hpos. unfold decl_all in He. destruct Hd.
    - (* type *)
      apply elem_of_app in He as [He|He]; [|by apply elem_of_nil in He].
      cbn [Pass1.tv] in He. apply elem_of_concat_map in He as (s & Hs & He).
      assert (s = NTypeSpec sd nm tps t) as ->.
      { eapply (wf_pos_children (NGenDecl p TYPE doc specs)); [done|done|done|exact Hp| |].
        - rewrite <- Hpos. by eapply tv_poss.
        - up (NIdent nm). apply poss_ident. }
      cbn [Pass1.tv] in He. apply elem_of_cons in He as [->|He]; [done|].
      exfalso. eapply (wf_pos_split (NTypeSpec sd nm tps t) [NIdent nm] [tps; t]);
        [|reflexivity|by apply elem_of_list_singleton| |exact Hp|apply poss_ident|].
      { eapply wf_pos_child; [|exact Hwf]; done. } { by right; left. }
      rewrite <- Hpos. by eapply tv_poss.
    - (* func *)
      apply elem_of_app in He as [He|He]; [by apply elem_of_nil in He|].
      cbn in He. apply elem_of_cons in He as [->|He]; [done|].
      exfalso. eapply (wf_pos_split (NFuncDecl doc p e0 None nm t b) [NIdent nm]);
        [done|reflexivity|by apply elem_of_list_singleton| |exact Hp|apply poss_ident|].
      { left. } rewrite <- Hpos. by eapply fv_poss.
    - (* method *)
      apply elem_of_app in He as [He|He]; [by apply elem_of_nil in He|].
      cbn in He. rewrite (recv_ident_base _ _ H) in He.
      apply elem_of_cons in He as [->|He]; [done|].
      exfalso. eapply (wf_pos_split (NFuncDecl doc p e0 _ nm t b) [_; NIdent nm]);
        [done|reflexivity|right; left| |exact Hp|apply poss_ident|].
      { left. } rewrite <- Hpos. by eapply fv_poss.
    - (* value *)
      apply elem_of_app in He as [He|He].
      { exfalso. cbn [Pass1.tv] in He. apply elem_of_concat_map in He as (s & Hs & He).
        assert (s = NValueSpec sd sc names t vs) as ->.
        { eapply (wf_pos_children (NGenDecl p tok doc specs)); [done|done|done|exact Hp| |].
          - rewrite <- Hpos. by eapply tv_poss.
          - up (NIdent nm). apply poss_ident. }
        by apply elem_of_nil in He. }
      assert (He' : e ∈ (vvl specs (VState (Some (NGenDecl p tok doc specs)) (new_scope path))).2).
      { destruct H as [->| ->]; exact He. }
      apply elem_of_list_split in H0 as (l1 & l2 & ->).
      apply (vvl_spec (NGenDecl p tok doc (l1 ++ NValueSpec sd sc names t vs :: l2))) in He'; [|done|done|by rewrite Hpos|].
      2:{ rewrite Hpos. up (NIdent nm). apply poss_ident. }
      match type of He' with context [vv WALK _ ?st] => set (st' := st) in He' end.
      assert (Hsc : v_scope st' = new_scope path).
      { unfold st'. rewrite vvl_scope_all; [done|]. intros x Hx. by eapply (Hcv eq_refl). }
      assert (H0 : NValueSpec sd sc names t vs ∈ l1 ++ NValueSpec sd sc names t vs :: l2) by (apply elem_of_app; right; left).
      assert (Hwf' : wf_pos (NValueSpec sd sc names t vs)) by (eapply wf_pos_child; [|exact Hwf]; done).
      apply vv_valuespec_ev in He' as [(j & Hj & ->)|[(t0 & st2 & -> & He')|(x & st2 & Hx & He')]].
      + cbn in Hpos |- *. assert (j = nm) as ->; [|rewrite Hsc; done].
        eapply wf_pos_names; [exact Hwf'|reflexivity|done..].
      + exfalso. eapply (wf_pos_split (NValueSpec sd sc names (Some t0) vs));
          [done|reflexivity| | |exact Hp|apply poss_ident|].
        { by apply elem_of_list_fmap_1. } { left. } rewrite <- Hpos. by eapply vv_poss.
      + exfalso. eapply (wf_pos_split (NValueSpec sd sc names t vs));
          [done|reflexivity| | |exact Hp|apply poss_ident|].
        { by apply elem_of_list_fmap_1. } { apply elem_of_app. by right. }
        rewrite <- Hpos. by eapply vv_poss.
    - (* field *)
      apply elem_of_app in He as [He|He]; [|by apply elem_of_nil in He].
      cbn [Pass1.tv] in He. apply elem_of_concat_map in He as (s & Hs & He).
      assert (s = NTypeSpec sd T tps (NStructType ptr sp (NFieldList fields))) as ->.
      { eapply (wf_pos_children (NGenDecl p TYPE doc specs)); [done|done|done|exact Hp| |].
        - rewrite <- Hpos. by eapply tv_poss.
        - up (NStructType ptr sp (NFieldList fields)). up (NFieldList fields).
          up (NField fd fc names ft). up (NIdent nm). apply poss_ident. }
      assert (Hwf1 : wf_pos (NTypeSpec sd T tps (NStructType ptr sp (NFieldList fields))))
        by (eapply wf_pos_child; [|exact Hwf]; done).
      assert (Hin : id_pos nm ∈ poss (NStructType ptr sp (NFieldList fields))).
      { up (NFieldList fields). up (NField fd fc names ft). up (NIdent nm). apply poss_ident. }
      cbn [Pass1.tv] in He. apply elem_of_cons in He as [->|He].
      { exfalso. cbn in Hpos.
        eapply (wf_pos_split _ [NIdent T] [tps; NStructType ptr sp (NFieldList fields)]);
          [exact Hwf1|reflexivity|by apply elem_of_list_singleton|right; left|exact Hp| |exact Hin].
        rewrite <- Hpos. apply poss_ident. }
      eapply field_event in He as (-> & -> & ->); [done| |exact H0|done|done|done].
      by eapply wf_typespec_fields.
    - (* embedded *)
      apply elem_of_app in He as [He|He]; [|by apply elem_of_nil in He].
      cbn [Pass1.tv] in He. apply elem_of_concat_map in He as (s & Hs & He).
      assert (Hft : id_pos nm ∈ poss ft).
      { apply ident_of_type_expr_poss. rewrite (embedded_ident_list _ _ H1).
        by apply elem_of_list_singleton. }
      assert (Hin : id_pos nm ∈ poss (NStructType ptr sp (NFieldList fields))).
      { up (NFieldList fields). up (NField fd fc [] ft). by up ft. }
      assert (s = NTypeSpec sd T tps (NStructType ptr sp (NFieldList fields))) as ->.
      { eapply (wf_pos_children (NGenDecl p TYPE doc specs)); [done|done|done|exact Hp| |].
        - rewrite <- Hpos. by eapply tv_poss.
        - by up (NStructType ptr sp (NFieldList fields)). }
      assert (Hwf1 : wf_pos (NTypeSpec sd T tps (NStructType ptr sp (NFieldList fields))))
        by (eapply wf_pos_child; [|exact Hwf]; done).
      assert (Hwf2 : wf_pos (NFieldList fields)).
      { by eapply wf_typespec_fields. }
      cbn [Pass1.tv] in He. apply elem_of_cons in He as [->|He].
      { exfalso. cbn in Hpos.
        eapply (wf_pos_split _ [NIdent T] [tps; NStructType ptr sp (NFieldList fields)]);
          [exact Hwf1|reflexivity|by apply elem_of_list_singleton|right; left|exact Hp| |exact Hin].
        rewrite <- Hpos. apply poss_ident. }
      cbn [Pass1.tv] in He. apply elem_of_concat_map in He as (f' & Hf' & He).
      assert (f' = NField fd fc [] ft) as ->.
      { eapply (wf_pos_children (NFieldList fields)); [done|done|done|exact Hp| |].
        - rewrite <- Hpos. by eapply tv_poss.
        - by up ft. }
      cbn [Pass1.tv] in He. rewrite (embedded_ident_list _ _ H1) in He.
      by apply elem_of_list_singleton in He as ->.
    - (* interface method *)
      apply elem_of_app in He as [He|He]; [|by apply elem_of_nil in He].
      cbn [Pass1.tv] in He. apply elem_of_concat_map in He as (s & Hs & He).
      assert (s = NTypeSpec sd T tps (NInterfaceType ptr sp (NFieldList fields))) as ->.
      { eapply (wf_pos_children (NGenDecl p TYPE doc specs)); [done|done|done|exact Hp| |].
        - rewrite <- Hpos. by eapply tv_poss.
        - up (NInterfaceType ptr sp (NFieldList fields)). up (NFieldList fields).
          up (NField fd fc names ft). up (NIdent nm). apply poss_ident. }
      assert (Hwf1 : wf_pos (NTypeSpec sd T tps (NInterfaceType ptr sp (NFieldList fields))))
        by (eapply wf_pos_child; [|exact Hwf]; done).
      assert (Hin : id_pos nm ∈ poss (NInterfaceType ptr sp (NFieldList fields))).
      { up (NFieldList fields). up (NField fd fc names ft). up (NIdent nm). apply poss_ident. }
      cbn [Pass1.tv] in He. apply elem_of_cons in He as [->|He].
      { exfalso. cbn in Hpos.
        eapply (wf_pos_split _ [NIdent T] [tps; NInterfaceType ptr sp (NFieldList fields)]);
          [exact Hwf1|reflexivity|by apply elem_of_list_singleton|right; left|exact Hp| |exact Hin].
        rewrite <- Hpos. apply poss_ident. }
      eapply field_event in He as (-> & -> & ->); [done| |exact H0|done|done|done].
      by eapply wf_typespec_methods.
  Qed.

  Lemma decl_all_exists d i k par :
    decl_declares d i k par → ∃ e, e ∈ decl_all d ∧ e_pos e = id_pos i.
  Proof.
    intros Hd. unfold decl_all. destruct Hd.
    - eexists. split; [|shelve]. apply elem_of_app; left. cbn [Pass1.tv].
      apply elem_of_concat_map. eexists. split; [done|]. cbn [Pass1.tv]. left. Unshelve. done.
    - eexists. split; [|shelve]. apply elem_of_app; right. cbn. left. Unshelve. done.
    - eexists. split; [|shelve]. apply elem_of_app; right. cbn. left. Unshelve. done.
    - assert (∃ st', ∀ e, e ∈ (vv WALK (NValueSpec sd sc names t vs) st').2 →
        e ∈ (vvl specs (VState (Some (NGenDecl p tok doc specs)) (new_scope path))).2) as (st' & HH).
      { apply elem_of_list_split in H0 as (l1 & l2 & ->).
        exists (vvl l1 (VState (Some (NGenDecl p tok doc (l1 ++ NValueSpec sd sc names t vs :: l2))) (new_scope path))).1.
        intros e He. rewrite vvl_app, seq_evs. apply elem_of_app. right. cbn [P_Pass1.vvl]. rewrite seq_evs. apply elem_of_app. by left. }
      eexists. split; [|shelve]. apply elem_of_app; right.
      assert (∀ e, e ∈ (vvl specs (VState (Some (NGenDecl p tok doc specs)) (new_scope path))).2 →
        e ∈ decl_events (NGenDecl p tok doc specs)) as Hev.
      { intros e He. destruct H as [->| ->]; exact He. }
      apply Hev, HH. apply vv_valuespec_names. exact H1. Unshelve. done.
    - eexists. split; [|shelve]. apply elem_of_app; left. cbn [Pass1.tv].
      apply elem_of_concat_map. eexists. split; [done|]. cbn [Pass1.tv]. right.
      eapply (field_event_in fields); done. Unshelve. done.
    - eexists. split; [|shelve]. apply elem_of_app; left. cbn [Pass1.tv].
      apply elem_of_concat_map. eexists. split; [done|]. cbn [Pass1.tv]. right.
      apply elem_of_concat_map. eexists. split; [done|]. cbn [Pass1.tv].
      rewrite (embedded_ident_list _ _ H1). left. Unshelve. done.
    - eexists. split; [|shelve]. apply elem_of_app; left. cbn [Pass1.tv].
      apply elem_of_concat_map. eexists. split; [done|]. cbn [Pass1.tv]. right.
      eapply (field_event_in fields); done. Unshelve. done.
  Qed.
End Decl.

Section Package.
  Context (digest : string → string) (ti : tinfo) (fs : fset) (env : tenv).
  Notation decl_all := (decl_all digest ti fs).

  Lemma file_events_elem path p h d nm decls e :
    e ∈ file_events digest ti fs path (NFile p h d nm decls) ↔
    ∃ decl, decl ∈ decls ∧ e ∈ decl_all path decl.
  Proof.
    unfold file_events, P_Pass1.decl_all. cbn [Pass1.tv]. rewrite elem_of_app, !elem_of_concat_map.
    setoid_rewrite elem_of_app. naive_solver.
  Qed.
  Lemma file_events_poss path f e : e ∈ file_events digest ti fs path f → e_pos e ∈ poss f.
  Proof.
    unfold file_events. rewrite elem_of_app. intros [He|He]; [by eapply tv_poss|].
    destruct f; try (by apply elem_of_nil in He).
    apply elem_of_concat_map in He as (x & Hx & He). up x.
    destruct x; try (by apply elem_of_nil in He).
    - destruct tok; try (by apply elem_of_nil in He); by eapply vv_poss.
    - by eapply fv_poss.
  Qed.

  Theorem package_events_unique pkg i k par e :
    wf_pkg_pos pkg → pkg_declares_by pkg i k par →
    (is_value_key k = true → common_before pkg i) →
    (0 < id_pos i)%Z → e ∈ package_events digest ti fs pkg → e_pos e = id_pos i →
    e_descs e = key_descriptors (p_path pkg) k ∧ e_ident e = i ∧
    (is_value_key k = false → e_parent e = Some par).
  Proof.
    intros [Hwf Hsep] (f & Hf & (p & h & d & nm & decls & decl & -> & Hdecl & Hd)) Hcv Hp He Hpos.
    assert (Hi : id_pos i ∈ poss decl) by (by eapply decl_declares_poss).
    apply elem_of_concat_map in He as (f' & Hf' & He).
    assert (f' = NFile p h d nm decls) as ->.
    { eapply pairwise_sep_eq; [exact Hsep|done|done|exact Hp| |].
      - rewrite <- Hpos. by eapply file_events_poss.
      - up decl. done. }
    apply file_events_elem in He as (decl' & Hdecl' & He).
    assert (Hwf' := Hwf _ Hf).
    assert (decl' = decl) as ->.
    { eapply (wf_pos_children (NFile p h d nm decls)); [done|child_mem|child_mem|exact Hp| |done].
      rewrite <- Hpos. apply elem_of_app in He as [He|He]; [by eapply tv_poss|].
      destruct decl'; try (by apply elem_of_nil in He).
      - destruct tok; try (by apply elem_of_nil in He); by eapply vv_poss.
      - by eapply fv_poss. }
    eapply decl_all_unique; [|exact Hd| |done|exact He|done].
    - eapply wf_pos_child; [|exact Hwf']. child_mem.
    - intros Hv p' tok doc l1 sd sc names t vs l2 s -> Hi' Hs. apply (Hcv Hv). eexists _, _, _, _, _, _, _, _, _, _, _.
      split; [exact Hf|]. split; [right; exact Hdecl|]. by split.
  Qed.
  Theorem package_events_exists pkg i k par :
    pkg_declares_by pkg i k par → ∃ e, e ∈ package_events digest ti fs pkg ∧ e_pos e = id_pos i.
  Proof.
    intros (f & Hf & (p & h & d & nm & decls & decl & -> & Hdecl & Hd)).
    eapply decl_all_exists in Hd as (e & He & Hpos).
    exists e. split; [|done]. apply elem_of_concat_map. eexists. split; [done|].
    apply file_events_elem. by exists decl.
  Qed.

  (** the table left by a sequence of registrations *)
  Definition event_info (m : gmodule) (e : event) : syminfo :=
    new_symbol_info env ti
      (format_symbol (Sym "scip-go" (SPkg "gomod" (m_path m) (m_version m)) (e_descs e)))
      (e_parent e) (e_ident e).
  Definition put (m : gmodule) (t : ptable) (e : event) : ptable := pset t (e_pos e) (event_info m e).

  Lemma res_fold_put pkg m evs t :
    p_module pkg = Some m →
    res_fold (apply_event ti env pkg) t evs = Ok (foldl (put m) t evs).
  Proof.
    intros Hm. revert t. induction evs as [|e evs IH]; intros t; [done|]. cbn.
    unfold apply_event at 1, from_descriptors. rewrite Hm. cbn. apply IH.
  Qed.
  Lemma res_fold_no_module pkg evs t t' :
    p_module pkg = None → res_fold (apply_event ti env pkg) t evs = Ok t' → evs = [].
  Proof.
    intros Hm. destruct evs as [|e evs]; [done|]. cbn. unfold apply_event, from_descriptors.
    by rewrite Hm.
  Qed.
  Lemma pset_other t p q x : q ≠ p → pset t q x !! p = t !! p.
  Proof.
    intros. unfold pset. destruct (t !! q) as [y|]; [destruct (String.eqb _ _)|];
      try done; by rewrite lookup_insert_ne.
  Qed.
  Lemma pset_same t p x y : t !! p = Some y → i_symbol y = i_symbol x → pset t p x = t.
  Proof. intros H E. unfold pset. rewrite H, E, String.eqb_refl. done. Qed.
  Lemma pset_new t p x : t !! p = None → pset t p x !! p = Some x.
  Proof. intros H. unfold pset. rewrite H. apply lookup_insert. Qed.

  Lemma foldl_put_keep m evs t p y :
    t !! p = Some y →
    (∀ e, e ∈ evs → e_pos e = p → i_symbol (event_info m e) = i_symbol y) →
    foldl (put m) t evs !! p = Some y.
  Proof.
    revert t. induction evs as [|e evs IH]; intros t Hy HS; [done|]. cbn. apply IH.
    - unfold put. destruct (decide (e_pos e = p)) as [Hp|Hp].
      + rewrite Hp. erewrite pset_same; [done|done|]. symmetry. apply HS; [left|done].
      + by rewrite pset_other.
    - intros e' He'. apply HS. by right.
  Qed.
  Lemma foldl_put_first m evs t p :
    t !! p = None → (∃ e, e ∈ evs ∧ e_pos e = p) →
    (∀ e e', e ∈ evs → e' ∈ evs → e_pos e = p → e_pos e' = p →
             i_symbol (event_info m e) = i_symbol (event_info m e')) →
    ∃ e, e ∈ evs ∧ e_pos e = p ∧ foldl (put m) t evs !! p = Some (event_info m e).
  Proof.
    revert t. induction evs as [|e evs IH]; intros t Hn (e0 & He0 & Hp0) HS;
      [by apply elem_of_nil in He0|].
    cbn. destruct (decide (e_pos e = p)) as [Hp|Hp].
    - exists e. split; [left|]. split; [done|]. apply foldl_put_keep.
      + unfold put. rewrite Hp. by apply pset_new.
      + intros e' He' Hp'. apply HS; [by right|left|done|done].
    - apply elem_of_cons in He0 as [->|He0]; [done|].
      destruct (IH (put m t e)) as (e1 & He1 & Hp1 & Hl).
      + unfold put. by rewrite pset_other.
      + eauto.
      + intros a b Ha Hb. apply HS; by right.
      + exists e1. split; [by right|done].
  Qed.

  (** what the table says at the position of a declared identifier *)
  Theorem declared_entry pkg tbl i k par :
    wf_pkg_pos pkg → pkg_declares_by pkg i k par →
    (is_value_key k = true → common_before pkg i) →
    (0 < id_pos i)%Z → visit_package_table digest ti fs env pkg = Ok tbl →
    ∃ m info e, p_module pkg = Some m ∧ tbl !! id_pos i = Some info ∧
      i_symbol info = key_symbol (p_path pkg) m k ∧
      e ∈ package_events digest ti fs pkg ∧ e_pos e = id_pos i ∧ info = event_info m e ∧ e_ident e = i ∧
      (is_value_key k = false → e_parent e = Some par).
  Proof.
    intros Hwf Hd Hcv Hp Ht. unfold visit_package_table in Ht.
    destruct (package_events_exists pkg i k par Hd) as (e0 & He0 & Hp0).
    destruct (p_module pkg) as [m|] eqn:Hm.
    - rewrite (res_fold_put pkg m) in Ht by done. injection Ht as <-.
      destruct (foldl_put_first m (package_events digest ti fs pkg) ∅ (id_pos i))
        as (e & He & Hpos & Hl).
      + apply lookup_empty.
      + eauto.
      + intros a b Ha Hb Hpa Hpb. unfold event_info. cbn.
        destruct (package_events_unique pkg i k par a) as (-> & _); try done.
        destruct (package_events_unique pkg i k par b) as (-> & _); done.
      + destruct (package_events_unique pkg i k par e) as (Hde & Hid & Hpar); try done.
        exists m, (event_info m e), e. split; [done|]. split; [done|]. split; [|done].
        unfold event_info, key_symbol. cbn. by rewrite Hde.
    - apply res_fold_no_module in Ht; [|done]. rewrite Ht in He0. by apply elem_of_nil in He0.
  Qed.
End Package.

(** varVisitor keeps its current declaration when there is no nested group *)
Definition no_gendecl (n : node) : Prop := ∀ p k d l, k = VAR ∨ k = CONST → NGenDecl p k d l ∉ subnodes n.
Lemma no_gendecl_child n c : c ∈ node_children n → no_gendecl n → no_gendecl c.
Proof. intros Hc H p k d l Hk Hin. apply (H p k d l Hk). by apply (subnodes_child n c). Qed.

Section Cur.
  Context (digest : string → string) (ti : tinfo) (fs : fset).
  Notation vv := (vv digest ti fs).
  Notation vvl := (vvl digest ti fs).
  Ltac nc c := match goal with H : no_gendecl ?n |- _ =>
    apply (no_gendecl_child n c); [child_mem|done] end.

  Lemma vvl_cur n l :
    Forall (λ x, no_gendecl x → ∀ m st, v_cur (vv m x st).1 = v_cur st) l →
    no_gendecl n → (∀ x, x ∈ l → x ∈ node_children n) →
    ∀ st, v_cur (vvl l st).1 = v_cur st.
  Proof.
    intros HF Hn. induction HF as [|x l Hx HF IH]; intros Hc st; [done|].
    cbn. rewrite seq_st, IH; [|intros; apply Hc; by constructor].
    apply Hx. apply (no_gendecl_child n); [apply Hc; by constructor|done].
  Qed.
  Lemma vvnames_cur n t l :
    (∀ st, v_cur (vv ANON t st).1 = v_cur st) →
    ∀ st, v_cur (vvnames digest ti fs n t l st).1 = v_cur st.
  Proof.
    intros Ht. induction l as [|i l IH]; intros st; cbn [vvnames]; [done|].
    rewrite seq_st, IH. specialize (Ht st). by destruct (vv ANON t st).
  Qed.
  Lemma vv_cur n : no_gendecl n → ∀ m st, v_cur (vv m n st).1 = v_cur st.
  Proof.
    induction n using node_ind'; intros Hcv md st; destruct md; cbn [Pass1.vv];
      fold vvl; try done.
    - destruct ns as [|i0 ns0]; [done|].
      change (v_cur (vvnames digest ti fs (NField d c (i0 :: ns0) n) n (i0 :: ns0) st).1 = v_cur st).
      apply vvnames_cur. intros. apply IHn. nc n.
    - by eapply vvl_cur.
    - apply IHn. nc n.
    - destruct (String.eqb _ _); [done|]. rewrite anon_st. cbn [v_pop v_cur].
      rewrite IHn by nc n. done.
    - apply IHn. nc n.
    - destruct (String.eqb _ _); [done|]. rewrite anon_st. cbn [v_pop v_cur].
      rewrite IHn by nc n. done.
    - rewrite !seq_st. rewrite IHn3, IHn2, IHn1; [done|nc n1|nc n2|nc n3].
    - rewrite !seq_st. rewrite IHn2, IHn1; [done|nc n1|nc n2].
    - rewrite !seq_st. rewrite IHn2, IHn1; [done|nc n1|nc n2].
    - rewrite !seq_st. rewrite IHn by nc n. destruct l as [x|]; [|done]. apply H. nc x.
    - apply IHn. nc n.
    - apply IHn. nc n.
    - apply IHn. nc n.
    - apply IHn. nc n.
    - apply IHn. nc n.
    - apply IHn. nc n.
    - rewrite !seq_st. rewrite IHn2, IHn1; [done|nc n1|nc n2].
    - rewrite !seq_st. rewrite IHn2, IHn1; [done|nc n1|nc n2].
    - rewrite !seq_st. erewrite vvl_cur; [apply IHn; nc n|done|done|intros; child_mem].
    - apply IHn. nc n.
    - rewrite !seq_st. rewrite IHn2, IHn1; [done|nc n1|nc n2].
    - by eapply vvl_cur.
    - rewrite !seq_st. rewrite IHn2, IHn1; [done|nc n2|nc n3].
    - assert (Hvs : ∀ st, v_cur (vvl vs st).1 = v_cur st).
      { eapply vvl_cur; [done|done|]. intros; child_mem. }
      destruct ns as [|i0 ns0]; [done|].
      set (st1 := v_push st _). set (r := match t with Some _ => _ | None => _ end).
      assert (Hr : v_cur r.1 = v_cur st).
      { subst r. destruct t as [t|].
        - destruct (vtype_action_of t).
          + rewrite anon_st. cbn. by rewrite Hvs.
          + rewrite seq_st, anon_st. cbn. rewrite Hvs, H by nc t. done.
          + done.
        - rewrite anon_st. cbn. by rewrite Hvs. }
      by destruct r.
    - destruct k; try done; exfalso; (eapply (Hcv p _ d l); [|apply subnodes_self]; by auto).
    - rewrite !seq_st.
      assert (∀ st, v_cur (match b with Some x => vv WALK x st | None => (st, []) end).1 = v_cur st) as ->.
      { intros. destruct b as [x|]; [|done]. apply H0. nc x. }
      rewrite IHn by nc n0. destruct r as [x|]; [|done]. apply H. nc x.
    - eapply vvl_cur; eauto. intros; child_mem.
    - by eapply vvl_cur.
  Qed.

  Lemma vvl_cur_all l st : (∀ x, x ∈ l → no_gendecl x) → v_cur (vvl l st).1 = v_cur st.
  Proof.
    revert st. induction l as [|x l IH]; intros st Hc; [done|]. cbn. rewrite seq_st, IH; [|intros; apply Hc; by right].
    apply vv_cur, Hc. left.
  Qed.

  Lemma package_events_parent pkg i k par e :
    wf_pkg_pos pkg → pkg_declares_by pkg i k par →
    (is_value_key k = true → no_group_before pkg i) →
    (is_value_key k = true → common_before pkg i) →
    (0 < id_pos i)%Z → e ∈ package_events digest ti fs pkg → e_pos e = id_pos i →
    e_parent e = Some par.
  Proof.
    intros Hwf Hd Hnn Hcv Hp He Hpos.
    destruct (is_value_key k) eqn:Hk.
    2:{ eapply package_events_unique; [done|done|rewrite Hk; done|done|done|done|done]. }
    specialize (Hnn eq_refl).
    destruct Hd as (f & Hf & (p & h & d & nm & decls & decl & -> & Hdecl & Hd)).
    assert (Hi : id_pos i ∈ poss decl) by (by eapply decl_declares_poss).
    destruct Hwf as [Hwf Hsep].
    apply elem_of_concat_map in He as (f' & Hf' & He).
    assert (f' = NFile p h d nm decls) as ->.
    { eapply pairwise_sep_eq; [exact Hsep|done|done|exact Hp| |].
      - rewrite <- Hpos. by eapply file_events_poss.
      - up decl. done. }
    apply file_events_elem in He as (decl' & Hdecl' & He).
    assert (Hwf' := Hwf _ Hf).
    assert (decl' = decl) as ->.
    { eapply (wf_pos_children (NFile p h d nm decls)); [done|child_mem|child_mem|exact Hp| |done].
      rewrite <- Hpos. apply elem_of_app in He as [He|He]; [by eapply tv_poss|].
      destruct decl'; try (by apply elem_of_nil in He).
      - destruct tok; try (by apply elem_of_nil in He); by eapply vv_poss.
      - by eapply fv_poss. }
    destruct Hd; try discriminate.
    assert (Hwd : wf_pos (NGenDecl p0 tok doc specs)).
    { eapply wf_pos_child; [|exact Hwf']. child_mem. }
    unfold decl_all in He. apply elem_of_app in He as [He|He].
    { exfalso. cbn [Pass1.tv] in He. apply elem_of_concat_map in He as (s & Hs & He).
      assert (s = NValueSpec sd sc names t vs) as ->.
      { eapply (wf_pos_children (NGenDecl p0 tok doc specs)); [done|done|done|exact Hp| |].
        - rewrite <- Hpos. by eapply tv_poss.
        - up (NIdent nm0). apply poss_ident. }
      by apply elem_of_nil in He. }
    assert (He' : e ∈ (vvl specs (VState (Some (NGenDecl p0 tok doc specs)) (new_scope (p_path pkg)))).2).
    { destruct H as [->| ->]; exact He. }
    apply elem_of_list_split in H0 as (l1 & l2 & ->).
    apply (vvl_spec digest ti fs (NGenDecl p0 tok doc (l1 ++ NValueSpec sd sc names t vs :: l2))) in He'; [|done|done|by rewrite Hpos|].
    2:{ rewrite Hpos. up (NIdent nm0). apply poss_ident. }
    match type of He' with context [vv WALK _ ?st] => set (st' := st) in He' end.
    assert (Hsc : v_cur st' = Some (NGenDecl p0 tok doc (l1 ++ NValueSpec sd sc names t vs :: l2))).
    { unfold st'. rewrite vvl_cur_all; [done|]. intros x Hx a b c l Hkk. apply Hnn; [|done].
      eexists _, _, _, _, _, _, _, _, _, _, _. split; [exact Hf|]. split; [right; exact Hdecl|]. by split. }
    assert (H0 : NValueSpec sd sc names t vs ∈ l1 ++ NValueSpec sd sc names t vs :: l2) by (apply elem_of_app; right; left).
    assert (Hwf2 : wf_pos (NValueSpec sd sc names t vs)) by (eapply wf_pos_child; [|exact Hwd]; done).
    apply vv_valuespec_ev in He' as [(j & Hj & ->)|[(t0 & st2 & -> & He')|(x & st2 & Hx & He')]].
    + cbn. by rewrite Hsc.
    + exfalso. eapply (wf_pos_split (NValueSpec sd sc names (Some t0) vs));
        [done|reflexivity| | |exact Hp|apply poss_ident|].
      { by apply elem_of_list_fmap_1. } { left. } rewrite <- Hpos. by eapply vv_poss.
    + exfalso. eapply (wf_pos_split (NValueSpec sd sc names t vs));
        [done|reflexivity| | |exact Hp|apply poss_ident|].
      { by apply elem_of_list_fmap_1. } { apply elem_of_app. by right. }
      rewrite <- Hpos. by eapply vv_poss.
  Qed.
End Cur.
