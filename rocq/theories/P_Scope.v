(** Every symbol registered by the first pass lies below its package: its descriptors
    are the package's namespace followed by at least one more. *)
From Coq Require Import Ascii String.
From stdpp Require Import prelude strings gmap.
From Verif Require Import GoStr Scip GoTypes Ast Packages Symbols Document Lookup Pass1 SpecSymbol SpecDecl
  P_Symbols P_Pass1 P_Link.
Open Scope string_scope.
Open Scope list_scope.

Definition under (sc : list descriptor) (e : event) : Prop := ∃ r, r ≠ [] ∧ e_descs e = sc ++ r.
Lemma under_app sc sc' e : under (sc ++ sc') e → under sc e.
Proof.
  intros (r & Hr & E). exists (sc' ++ r). split; [by destruct sc'|]. by rewrite E, List.app_assoc.
Qed.
Lemma under_ev sc d p i z : under sc (Ev (sc ++ [d]) p i z).
Proof. exists [d]. done. Qed.

Section Scope.
  Context (digest : string → string) (ti : tinfo) (fs : fset).
  Notation tv := (tv digest ti).
  Notation vv := (vv digest ti fs).
  Notation vvl := (vvl digest ti fs).
  Notation vvnames := (vvnames digest ti fs).

  Lemma tv_under n : ∀ m iface cur sc e, e ∈ tv m iface cur sc n → under sc e.
  Proof.
    induction n using node_ind'; intros md iface cur sc ev;
      destruct md; cbn [Pass1.tv]; try (by intros ?%elem_of_nil); try (by eauto).
    - destruct ns as [|i0 ns].
      + destruct iface; [by eauto|]. intros (i & -> & Hi)%elem_of_list_fmap. apply under_ev.
      + rewrite elem_of_concat_map. intros (i & Hi & [->|He]%elem_of_cons); [apply under_ev|eauto].
    - rewrite elem_of_concat_map. intros (x & Hx & He). rewrite Forall_forall in H. eauto.
    - destruct (String.eqb _ _); [by intros ?%elem_of_nil|]. intros He. eapply under_app. eauto.
    - destruct (String.eqb _ _); [by intros ?%elem_of_nil|]. intros He. eapply under_app. eauto.
    - rewrite elem_of_app. intros [He|He]; eauto.
    - intros [->|He]%elem_of_cons; [apply under_ev|]. eapply under_app. eauto.
    - rewrite elem_of_concat_map. intros (x & Hx & He). rewrite Forall_forall in H. eauto.
    - rewrite elem_of_concat_map. intros (x & Hx & He). rewrite Forall_forall in H. eauto.
  Qed.

  (** the scope only grows, and everything registered lies under it *)
  Definition grows (st : vstate) (r : vstate * list event) : Prop :=
    (∃ r', v_scope r.1 = v_scope st ++ r') ∧ ∀ e, e ∈ r.2 → under (v_scope st) e.
  Lemma grows_ret st : grows st (st, []).
  Proof. split; [exists []; by rewrite List.app_nil_r|]. intros e He. by apply elem_of_nil in He. Qed.
  Lemma grows_seq st r k : grows st r → (∀ st', grows st' (k st')) → grows st (seq r k).
  Proof.
    intros [(x & Hx) H2] Hk. destruct (Hk r.1) as [(y & Hy) H4]. split.
    - exists (x ++ y). by rewrite seq_st, Hy, Hx, List.app_assoc.
    - intros e [He|He]%seq_ev; [by apply H2|]. apply H4 in He. rewrite Hx in He. by eapply under_app.
  Qed.
  Lemma grows_pop st d r : grows (v_push st d) r → grows st (let '(st', e) := r in (v_pop st', e)).
  Proof.
    intros [(x & Hx) H2]. split.
    - rewrite anon_st. cbn [v_pop v_scope]. unfold scope_pop. rewrite Hx. cbn [v_push v_scope].
      rewrite <-List.app_assoc. destruct (@exists_last _ (d :: x)) as (l & a & E); [discriminate|].
      cbn [app]. rewrite E. exists l. rewrite List.app_assoc. apply removelast_snoc.
    - rewrite anon_evs. intros e He. apply H2 in He. exact (under_app (v_scope st) [d] e He).
  Qed.
  Lemma grows_cur st c r : grows (VState c (v_scope st)) r → grows st r.
  Proof. done. Qed.
  Lemma grows_vvl l : Forall (λ x, ∀ m st, grows st (vv m x st)) l → ∀ st, grows st (vvl l st).
  Proof.
    induction 1 as [|x l Hx Hl IH]; intros st; [apply grows_ret|]. cbn. by apply grows_seq.
  Qed.
  Lemma grows_names n t l : (∀ st, grows st (vv ANON t st)) → ∀ st, grows st (vvnames n t l st).
  Proof.
    intros Ht. induction l as [|i l IH]; intros st; [apply grows_ret|]. cbn [P_Pass1.vvnames]. apply grows_seq; [|done].
    specialize (Ht st). destruct (vv ANON t st) as [st' e']. destruct Ht as [H1 H2]. split; [done|].
    cbn. intros e [->|He]%elem_of_cons; [apply under_ev|by apply H2].
  Qed.
  Lemma grows_events st evs r : (∀ e, e ∈ evs → under (v_scope st) e) → grows st r →
    grows st (let '(st', e) := r in (st', evs ++ e)).
  Proof.
    intros He [H1 H2]. destruct r as [st' e']. split; [done|]. cbn. intros e [H|H]%elem_of_app; auto. 
  Qed.

  Lemma vv_grows n : ∀ m st, grows st (vv m n st).
  Proof.
    induction n using node_ind'; intros md st; destruct md; cbn [Pass1.vv]; fold vvl;
      try apply grows_ret; try (by auto);
      try (by apply grows_vvl);
      try (by apply grows_seq; auto);
      try (by apply grows_seq; [auto|]; intros; apply grows_seq; auto).
    - destruct ns as [|i0 ns0].
      + split; [exists []; by rewrite List.app_nil_r|]. cbn. intros e (i & -> & Hi)%elem_of_list_fmap. apply under_ev.
      + apply (grows_names (NField d c (i0 :: ns0) n) n (i0 :: ns0)). auto.
    - destruct (String.eqb _ _); [apply grows_ret|]. eapply grows_pop. auto.
    - destruct (String.eqb _ _); [apply grows_ret|]. eapply grows_pop. auto.
    - apply grows_seq; [|auto]. destruct l as [x|]; [apply H|apply grows_ret].
    - apply grows_seq; [auto|]. intros. by apply grows_vvl.
    - destruct ns as [|i0 ns0]; [apply grows_ret|]. apply grows_events.
      { intros e (i & -> & Hi)%elem_of_list_fmap. apply under_ev. }
      set (d0 := Desc (spec_scope_name fs (i0 :: ns0)) Meta).
      assert (Hfin : ∀ st2, (∃ x, v_scope st2 = v_scope (v_push st d0) ++ x) →
        grows st (let '(st3, e3) := vvl vs st2 in (v_pop st3, e3))).
      { intros st2 (x & Hx). eapply (grows_pop st d0). pose proof (grows_vvl vs H0 st2) as [(y & Hy) H4]. split.
        - exists (x ++ y). by rewrite Hy, Hx, List.app_assoc.
        - intros e He. apply H4 in He. rewrite Hx in He. by eapply under_app. }
      destruct t as [t|]; [|apply Hfin; exists []; by rewrite List.app_nil_r].
      destruct (vtype_action_of t).
      + apply Hfin. exists []. by rewrite List.app_nil_r.
      + pose proof (H WALK (v_push st d0)) as [(x & Hx) H2]. split.
        * rewrite seq_st. destruct (Hfin (vv WALK t (v_push st d0)).1) as [H3 _]; [by exists x|]. done.
        * intros e [He|He]%seq_ev.
          -- apply H2 in He. exact (under_app (v_scope st) [d0] e He).
          -- destruct (Hfin (vv WALK t (v_push st d0)).1) as [_ H4]; [by exists x|]. by apply H4.
      + split; [by exists [d0]|]. intros e He. by apply elem_of_nil in He.
    - destruct k; try apply grows_ret; eapply grows_cur, grows_vvl; done.
    - apply grows_seq; [destruct r as [x|]; [apply H|apply grows_ret]|]. intros. apply grows_seq; [auto|].
      intros. destruct b as [x|]; [apply H0|apply grows_ret].
  Qed.

  Lemma iface_under sc m e : e ∈ iface_method_events sc m → under sc e.
  Proof.
    destruct m; cbn [iface_method_events]; try (by intros ?%elem_of_nil).
    rewrite elem_of_concat_map. intros (f & Hf & He). destruct f; try (by apply elem_of_nil in He).
    apply elem_of_list_fmap in He as (i & -> & Hi). apply under_ev.
  Qed.
  Lemma fvl_under sc l e : Forall (λ x, ∀ sc e, e ∈ fv sc x → under sc e) l → e ∈ fvl sc l → under sc e.
  Proof. intros HF (x & Hx & He)%fvl_ev. rewrite Forall_forall in HF. eauto. Qed.
  Lemma fv_under n : ∀ sc e, e ∈ fv sc n → under sc e.
  Proof.
    induction n using node_ind'; intros sc ev; cbn [fv]; fold (fvl sc);
      rewrite ?elem_of_app; try (by intros ?%elem_of_nil);
      try (by intros He; eapply fvl_under; eauto);
      try (by intros He; eauto);
      try (by intros [He|He]; eauto).
    - apply iface_under.
    - intros [He|He]; [|eauto]. destruct l as [x|]; [|by apply elem_of_nil in He]. eauto.
    - intros [He|He]; [eauto|]. eapply fvl_under; eauto.
    - intros [He|He].
      + destruct t as [x|]; [|by apply elem_of_nil in He]. eauto.
      + eapply fvl_under; eauto.
    - set (sc1 := match receiver_type_name r with Some _ => _ | None => _ end).
      assert (Hsc : ∀ e, under sc1 e → under sc e).
      { subst sc1. intros e0. destruct (receiver_type_name r); [apply under_app|done]. }
      intros [->|He]%elem_of_cons; [apply Hsc, under_ev|]. apply Hsc. eapply under_app. eauto.
  Qed.

  Lemma package_events_under pkg e : e ∈ package_events digest ti fs pkg → under [Desc (p_path pkg) Namespace] e.
  Proof.
    intros (f & Hf & He)%elem_of_concat_map. unfold file_events in He. apply elem_of_app in He as [He|He].
    - by apply tv_under in He.
    - destruct f; try (by apply elem_of_nil in He). apply elem_of_concat_map in He as (d & Hd & He).
      unfold decl_events in He. destruct d; try (by apply elem_of_nil in He).
      + match type of He with context [match ?t with VAR => _ | _ => _ end] => destruct t end;
          try (by apply elem_of_nil in He);
          match type of He with _ ∈ (Pass1.vv _ _ _ _ ?n ?st).2 => destruct (vv_grows n WALK st) as [_ H1]; exact (H1 _ He) end.
      + by apply fv_under in He.
  Qed.
End Scope.

(** every entry of the table was registered by an event *)
Lemma foldl_put_info ti env m evs t p i :
  foldl (put ti env m) t evs !! p = Some i → t !! p = Some i ∨ ∃ e, e ∈ evs ∧ e_pos e = p ∧ i = event_info ti env m e.
Proof.
  revert t. induction evs as [|e evs IH]; intros t H; [by left|]. cbn in H.
  apply IH in H as [H|(e' & He & Hp & ->)].
  - unfold put, pset in H. destruct (t !! e_pos e) as [y|] eqn:E.
    + destruct (String.eqb _ _); [by left|]. rewrite lookup_insert_Some in H.
      destruct H as [[<- <-]|[_ H]]; [|by left]. right. exists e. split; [left|done].
    + rewrite lookup_insert_Some in H. destruct H as [[<- <-]|[_ H]]; [|by left]. right. exists e. split; [left|done].
  - right. exists e'. split; [by right|done].
Qed.
Lemma table_entries digest ti fs env pkg m tbl pos i : p_module pkg = Some m →
  visit_package_table digest ti fs env pkg = Ok tbl → tbl !! pos = Some i →
  ∃ ds, ds ≠ [] ∧ i_symbol i = format_symbol (Sym "scip-go" (SPkg "gomod" (m_path m) (m_version m))
    (Desc (p_path pkg) Namespace :: ds)).
Proof.
  intros Hm Ht Hi. unfold visit_package_table in Ht. rewrite (res_fold_put ti env pkg m) in Ht by done.
  injection Ht as <-. apply foldl_put_info in Hi as [Hi|(e & He & _ & ->)]; [by rewrite lookup_empty in Hi|].
  apply package_events_under in He as (r & Hr & E). exists r. split; [done|].
  unfold event_info, new_symbol_info. cbn [i_symbol]. by rewrite E.
Qed.
