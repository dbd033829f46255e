(** The two passes and the search for implementations use comments for documentation and deprecation only. *)
From Coq Require Import Ascii String.
From stdpp Require Import prelude strings gmap sorting.
From Verif Require Import GoStr Scip GoTypes Ast Packages Symbols Document Lookup Pass1 Pass2 P_Pass1 Paths Loader Index Quote Fingerprint Impls P_Move SpecComment.
Open Scope string_scope.
Open Scope list_scope.

Definition res_rel {A B} (R : A → B → Prop) (r : res A) (r' : res B) : Prop :=
  match r, r' with Ok a, Ok b => R a b | Panic m, Panic m' => m = m' | _, _ => False end.
Lemma res_fold_rel {A A' B B'} (R : A → A' → Prop) (Q : B → B' → Prop) (f : A → B → res A) (f' : A' → B' → res A') l l' :
  Forall2 Q l l' → (∀ a a' b b', b ∈ l → R a a' → Q b b' → res_rel R (f a b) (f' a' b')) → ∀ a a', R a a' → res_rel R (res_fold f a l) (res_fold f' a' l').
Proof.
  induction 1 as [|b b' l l' Hb _ IH]; intros Hf a a' Ha; [done|]. cbn [res_fold]. pose proof (Hf a a' b b' ltac:(left) Ha Hb) as H.
  destruct (f a b), (f' a' b'); cbn in H |- *; try done. apply IH; [|done]. intros ? ? ? ? ?. apply Hf. by right.
Qed.
Lemma foldl_rel {A A' B B'} (R : A → A' → Prop) (Q : B → B' → Prop) (f : A → B → A) (f' : A' → B' → A') l l' :
  Forall2 Q l l' → (∀ a a' b b', R a a' → Q b b' → R (f a b) (f' a' b')) → ∀ a a', R a a' → R (foldl f a l) (foldl f' a' l').
Proof. induction 1 as [|b b' l l' Hb _ IH]; intros Hf a a' Ha; [done|]. cbn [foldl]. apply IH; [done|]. by apply Hf. Qed.
Lemma Forall2_same {A} (l : list A) : Forall2 (=) l l.
Proof. induction l; by constructor. Qed.
Lemma Forall2_map_r {A B} (f : A → B) (l : list A) : Forall2 (λ a b, b = f a) l (map f l).
Proof. induction l; by constructor. Qed.

Notation U := uncommented.
Notation mute := undocumented.

(** *** syntax *)
Lemma un_node_pos n : node_pos (U n) = node_pos n.
Proof.
  induction n as [| d c ns t IH | l IH |  |  |  |  |  |  |  |  |  | x y IHx _ | x y IHx _ | x l IHx _ | x s IHx | t b IHt _ |  | r nm p s |  | d c ns t vs _ _ |  |  |  | ] using node_ind'; cbn; try done.
  - destruct ns; [exact IH|done].
  - destruct IH as [|x l IH _]; [done|exact IH].
Qed.
Lemma un_ident_of_type_expr t : ident_of_type_expr (U t) = ident_of_type_expr t.
Proof. induction t using node_ind'; cbn; done. Qed.
Definition bare (e : event) : event := Ev (e_descs e) None (e_ident e) (e_pos e).
Lemma map_concat_bare {A} (h : A → list event) (h' : A → list event) (r : A → A) l : Forall (λ x, map bare (h' (r x)) = map bare (h x)) l →
  map bare (List.concat (map h' (map r l))) = map bare (List.concat (map h l)).
Proof. induction 1 as [|x l H _ IH]; [done|]. cbn. by rewrite !List.map_app, H, IH. Qed.

Section Pass1.
Context (digest : string → string) (ti : tinfo).
Lemma un_tv n : ∀ m iface cur cur' sc, map bare (tv digest ti m iface cur' sc (U n)) = map bare (tv digest ti m iface cur sc n).
Proof.
  induction n as [i|d c ns t IH|l IH|r p f IH|r p f IH| |p k v IHk IHv|p l e _ IH| |p x IH| | | | | | | | | |d nm tp t _ IH| |p k d l IH| |p h d nm l IH|] using node_ind';
    intros [|] iface cur cur' sc; cbn [uncommented tv]; try done; try (by apply IH).
  - destruct ns as [|i ns].
    + destruct iface; [apply IH|]. rewrite un_ident_of_type_expr, !map_map. by apply map_ext.
    + rewrite <-(List.map_id (i :: ns)) at 1. apply map_concat_bare. apply Forall_forall. intros j _. cbn [map]. f_equal. apply IH.
  - apply map_concat_bare. eapply Forall_impl; [exact IH|]. intros x Hx. apply Hx.
  - destruct (String.eqb _ _); [done|apply IH].
  - destruct (String.eqb _ _); [done|apply IH].
  - by rewrite !List.map_app, (IHk ANON iface cur cur'), (IHv ANON iface cur cur').
  - cbn [map]. f_equal. apply IH.
  - apply map_concat_bare. eapply Forall_impl; [exact IH|]. intros x Hx. cbn beta.
    replace (match U x with NTypeSpec _ _ _ (NInterfaceType _ _ _) => true | NTypeSpec _ _ _ _ => false | _ => iface end)
      with (match x with NTypeSpec _ _ _ (NInterfaceType _ _ _) => true | NTypeSpec _ _ _ _ => false | _ => iface end); [apply Hx|].
    destruct x as [| | | | | | | | | | | | | | | | | | |? ? ? t| | | | |]; try done. by destruct t.
  - apply map_concat_bare. eapply Forall_impl; [exact IH|]. intros x Hx. apply Hx.
Qed.

Context (fs fs' : fset).
Definition stays (m : node) : Prop :=
  match m with
  | NValueSpec _ _ (i :: _ :: _) _ _ => pos_line (fs_position fs' (id_pos i)) = pos_line (fs_position fs (id_pos i)) ∧
    pos_col (fs_position fs' (id_pos i)) = pos_col (fs_position fs (id_pos i))
  | _ => True end.
Definition bst (st : vstate) : vstate := VState None (v_scope st).
Definition bres (r : vstate * list event) : vstate * list event := (bst r.1, map bare r.2).
Notation V' := (vv digest ti fs').
Notation V := (vv digest ti fs).
Lemma un_seq r r' k k' : bres r' = bres r → (∀ st st', bst st' = bst st → bres (k' st') = bres (k st)) → bres (seq r' k') = bres (seq r k).
Proof.
  intros H Hk. destruct r as [st e], r' as [st' e']. unfold bres in H. cbn [fst snd] in H. injection H as Hs He.
  assert (bst st' = bst st) as Hst by (unfold bst; by rewrite Hs). specialize (Hk st st' Hst). cbn [seq]. destruct (k st) as [s1 e1], (k' st') as [s1' e1'].
  unfold bres in *. cbn [fst snd] in *. injection Hk as H1 H2. unfold bst. by rewrite !List.map_app, He, H2, H1.
Qed.
Lemma un_vvl l : Forall (λ x, ∀ m st st', bst st' = bst st → bres (V' m (U x) st') = bres (V m x st)) l →
  ∀ st st', bst st' = bst st → bres (vvl digest ti fs' (map U l) st') = bres (vvl digest ti fs l st).
Proof.
  induction 1 as [|x l Hx _ IH]; intros st st' Hs; [unfold bres; cbn; by rewrite Hs|]. cbn [map].
  change (bres (seq (V' WALK (U x) st') (vvl digest ti fs' (map U l))) = bres (seq (V WALK x st) (vvl digest ti fs l))). apply un_seq; [by apply Hx|done].
Qed.
Lemma un_vvnames n n' t l : (∀ st st', bst st' = bst st → bres (V' ANON (U t) st') = bres (V ANON t st)) →
  ∀ st st', bst st' = bst st → bres (vvnames digest ti fs' n' (U t) l st') = bres (vvnames digest ti fs n t l st).
Proof.
  intros Ht. induction l as [|i l IH]; intros st st' Hs; [unfold bres; cbn; by rewrite Hs|]. cbn [vvnames]. apply un_seq; [|done].
  specialize (Ht st st' Hs). destruct (V' ANON (U t) st') as [s1' e1'], (V ANON t st) as [s1 e1]. unfold bres in *. cbn [fst snd map] in *. injection Ht as H1 H2.
  unfold bst in Hs. injection Hs as Hs. unfold bst, bare at 1 3. cbn. by rewrite H1, H2, Hs.
Qed.
Lemma un_pop r r' : bres r' = bres r → bres (let '(st, e) := r' in (v_pop st, e)) = bres (let '(st, e) := r in (v_pop st, e)).
Proof. destruct r as [s e], r' as [s' e']. unfold bres, bst. cbn. intros [= H1 H2]. by rewrite H1, H2. Qed.
Lemma un_push st st' d : bst st' = bst st → bst (v_push st' d) = bst (v_push st d).
Proof. unfold bst. intros [= H]. cbn. by rewrite H. Qed.
Lemma stays_list l : Forall (λ x, Forall stays (subnodes x) → ∀ m st st', bst st' = bst st → bres (V' m (U x) st') = bres (V m x st)) l → Forall (λ x, Forall stays (subnodes x)) l →
  Forall (λ x, ∀ m st st', bst st' = bst st → bres (V' m (U x) st') = bres (V m x st)) l.
Proof. rewrite !Forall_forall. eauto. Qed.
Lemma Forall_concat_map' {A B} (Q : B → Prop) (h : A → list B) l : Forall Q (List.concat (map h l)) ↔ Forall (λ x, Forall Q (h x)) l.
Proof. induction l as [|x l IH]; cbn; [split; constructor|]. by rewrite Forall_app, Forall_cons, IH. Qed.
Ltac parts H := cbn [subnodes] in H; repeat first [rewrite Forall_cons in H|rewrite Forall_app in H|rewrite Forall_concat_map' in H]; decompose [and] H; clear H.
Lemma same_bres st st' (e : list event) : bst st' = bst st → bres (st', e) = bres (st, e).
Proof. intros H. unfold bres. cbn. by rewrite H. Qed.
Lemma un_vv n : Forall stays (subnodes n) → ∀ m st st', bst st' = bst st → bres (V' m (U n) st') = bres (V m n st).
Proof.
  induction n as [i|d c ns t IH|l IH|r p f IH|r p f IH|p a b c IHa IHb IHc|p k v IHk IHv|p l e IHl IH|p v IH|p x IH|p x IH|p x IH|x y IHx IHy|x y IHx IHy|x l IHx IHl|x s IH
    |t b IHt IHb|p l IH|r nm p s|d nm tp t IHtp IH|d c ns t vs IHt IHvs|p k d l IH|d p e r nm t b IHr IHt IHb|p h d nm l IH|p l IH] using node_ind';
    intros Hn [|] st st' Hs; cbn [uncommented vv]; try (by apply same_bres); fold (vvl digest ti fs'); fold (vvl digest ti fs); parts Hn;
    try (by apply un_vvl; [apply stays_list|]); try (by apply IH).
  - destruct ns as [|i ns].
    + unfold bres. cbn [fst snd]. rewrite Hs, un_ident_of_type_expr, !map_map. f_equal. apply map_ext. intros j. unfold bare. cbn. unfold bst in Hs. injection Hs as Hs. by rewrite Hs, un_node_pos.
    + exact (un_vvnames (NField d c (i :: ns) t) (NField "" "" (i :: ns) (U t)) t (i :: ns) ltac:(intros; by apply IH) st st' Hs).
  - destruct (String.eqb _ _); [by apply same_bres|]. apply un_pop. apply IH; [done|]. by apply un_push.
  - destruct (String.eqb _ _); [by apply same_bres|]. apply un_pop. apply IH; [done|]. by apply un_push.
  - apply un_seq; [by apply IHa|]. intros st1 st1' Hs1. apply un_seq; [by apply IHb|]. intros st2 st2' Hs2. by apply IHc.
  - apply un_seq; [by apply IHk|]. intros st1 st1' Hs1. by apply IHv.
  - apply un_seq; [by apply IHk|]. intros st1 st1' Hs1. by apply IHv.
  - destruct l as [x|]; apply un_seq; first [by apply IHl|by apply same_bres|idtac]; intros st1 st1' Hs1; by apply IH.
  - apply un_seq; [by apply IHx|]. intros st1 st1' Hs1. by apply IHy.
  - apply un_seq; [by apply IHx|]. intros st1 st1' Hs1. by apply IHy.
  - apply un_seq; [by apply IHx|]. by apply un_vvl, stays_list.
  - apply un_seq; [by apply IHt|]. intros st1 st1' Hs1. by apply IHb.
  - apply un_seq; [by apply IHtp|]. intros st1 st1' Hs1. by apply IH.
  - destruct ns as [|i ns]; [by apply same_bres|].
    assert (En : spec_scope_name fs' (i :: ns) = spec_scope_name fs (i :: ns)).
    { destruct ns as [|j ns]; [done|]. cbn [spec_scope_name]. match goal with H : stays (NValueSpec _ _ _ _ _) |- _ => cbn in H; destruct H as [-> ->] end. done. }
    rewrite En. set (l := i :: ns) in *. pose proof (un_push st st' (Desc (spec_scope_name fs l) Scip.Meta) Hs) as Hp.
    set (st1 := v_push st _) in *. set (st1' := v_push st' _) in *.
    assert (Hfin : ∀ s s', bst s' = bst s → bres (let '(st3, e3) := vvl digest ti fs' (map U vs) s' in (v_pop st3, e3)) = bres (let '(st3, e3) := vvl digest ti fs vs s in (v_pop st3, e3))).
    { intros s s' Hs1. apply un_pop. by apply un_vvl; [apply stays_list|]. }
    assert (Hend : ∀ r r', bres r' = bres r →
      bres (let '(s, e) := r' in (s, map (λ i0 : ident, Ev (v_scope st' ++ [Desc (id_name i0) Term]) (v_cur st') i0 (id_pos i0)) l ++ e)) =
      bres (let '(s, e) := r in (s, map (λ i0 : ident, Ev (v_scope st ++ [Desc (id_name i0) Term]) (v_cur st) i0 (id_pos i0)) l ++ e))).
    { intros [s e] [s' e']. unfold bres. cbn [fst snd]. intros [= E1 E2]. unfold bst in Hs. injection Hs as Hs. unfold bst. rewrite E1, !List.map_app, E2. f_equal. f_equal.
      rewrite !map_map. apply map_ext. intros j. unfold bare. cbn. by rewrite Hs. }
    destruct t as [t|]; [|by apply Hend, Hfin].
    assert (vtype_action_of (U t) = vtype_action_of t) as -> by (by destruct t). destruct (vtype_action_of t).
    + by apply Hend, Hfin.
    + apply Hend, un_seq; [by apply IHt|exact Hfin].
    + apply (Hend (st1, []) (st1', [])). by apply same_bres.
  - destruct k; try (by apply same_bres); apply un_vvl; try (by apply stays_list); unfold bst in *; injection Hs as Hs; cbn; by rewrite Hs.
  - assert (Hb : ∀ s s', bst s' = bst s → bres (match match b with Some x => Some (U x) | None => None end with Some x => V' WALK x s' | None => (s', []) end) =
      bres (match b with Some x => V WALK x s | None => (s, []) end)).
    { intros s s' Hs1. destruct b as [b|]; [by apply IHb|by apply same_bres]. }
    destruct r as [r|]; apply un_seq; first [by apply IHr|by apply same_bres|idtac]; intros st1 st1' Hs1; (apply un_seq; [by apply IHt|done]).
Qed.
Lemma un_base_type_name t : base_type_name (U t) = base_type_name t.
Proof. induction t using node_ind'; cbn; done. Qed.
Lemma un_receiver r : receiver_type_name (match r with Some x => Some (U x) | None => None end) = receiver_type_name r.
Proof.
  destruct r as [[| |l| | | | | | | | | | | | | | | | | | | | | |]|]; try done. destruct l as [|f l]; [done|]. destruct f; try done. cbn. apply un_base_type_name.
Qed.
Lemma un_iface_method_events sc m : map bare (iface_method_events sc (U m)) = map bare (iface_method_events sc m).
Proof.
  destruct m as [| |l| | | | | | | | | | | | | | | | | | | | | |]; try done. cbn. apply map_concat_bare. apply Forall_forall. intros f _.
  destruct f; try done. cbn. rewrite !map_map. by apply map_ext.
Qed.
Lemma un_fvl l : Forall (λ x, ∀ sc, map bare (fv sc (U x)) = map bare (fv sc x)) l → ∀ sc, map bare (fvl sc (map U l)) = map bare (fvl sc l).
Proof.
  induction 1 as [|x l Hx _ IH]; intros sc; [done|]. change (map bare (fv sc (U x) ++ fvl sc (map U l)) = map bare (fv sc x ++ fvl sc l)). by rewrite !List.map_app, Hx, IH.
Qed.
Lemma un_fv n : ∀ sc, map bare (fv sc (U n)) = map bare (fv sc n).
Proof.
  induction n as [i|d c ns t IH|l IH|r p f IH|r p f IH|p a b c IHa IHb IHc|p k v IHk IHv|p l e IHl IH|p v IH|p x IH|p x IH|p x IH|x y IHx IHy|x y IHx IHy|x l IHx IHl|x s IH
    |t b IHt IHb|p l IH|r nm p s|d nm tp t IHtp IH|d c ns t vs IHt IHvs|p k d l IH|d p e r nm t b IHr IHt IHb|p h d nm l IH|p l IH] using node_ind';
    intros sc; cbn [uncommented fv]; try done; fold (fvl sc); try (by apply un_fvl); try (by apply IH); rewrite ?List.map_app.
  - apply un_iface_method_events.
  - by rewrite IHk, IHv.
  - rewrite IH. destruct l as [x|]; [by rewrite IHl|done].
  - by rewrite IHx, IHy.
  - by rewrite IHx, IHy.
  - by rewrite IHx, (un_fvl l IHl).
  - by rewrite IHt, IHb.
  - by rewrite IHtp, IH.
  - rewrite (un_fvl vs IHvs). destruct t as [x|]; [by rewrite IHt|done].
  - rewrite un_receiver. cbn [map]. f_equal. apply IHt.
Qed.
Lemma un_decl_events path d : Forall stays (subnodes d) → map bare (decl_events digest ti fs' path (U d)) = map bare (decl_events digest ti fs path d).
Proof.
  intros Hd. destruct d as [| | | | | | | | | | | | | | | | | | | | |p k doc l|d p e r nm t b| |]; try done.
  - assert (H : map bare (V' WALK (U (NGenDecl p k doc l)) (VState None (new_scope path))).2 = map bare (V WALK (NGenDecl p k doc l) (VState None (new_scope path))).2).
    { exact (f_equal snd (un_vv (NGenDecl p k doc l) Hd WALK (VState None (new_scope path)) _ eq_refl)). }
    destruct k; first [done|exact H].
  - exact (un_fv (NFuncDecl d p e r nm t b) (new_scope path)).
Qed.
Lemma un_file_events path f : Forall stays (subnodes f) → map bare (file_events digest ti fs' path (U f)) = map bare (file_events digest ti fs path f).
Proof.
  intros Hf. unfold file_events. rewrite !List.map_app. rewrite (un_tv f WALK false None). f_equal.
  destruct f as [| | | | | | | | | | | | | | | | | | | | | | |p h d nm l|]; try done. cbn [uncommented]. apply map_concat_bare. parts Hf. apply Forall_forall. intros d' Hd. apply un_decl_events.
  match goal with H : Forall (λ x, Forall stays (subnodes x)) l |- _ => exact (proj1 (Forall_forall _ _) H d' Hd) end.
Qed.
End Pass1.

Section Rc.
Context (rc : node → node) (Hrc : comments_only rc).
Notation K := (rc_pkg rc).
Lemma stays_refl fs m : stays fs fs m.
Proof. destruct m as [| | | | | | | | | | | | | | | | | | | |d c ns t vs| | | |]; try done. by destruct ns as [|i [|j ns]]. Qed.
Lemma groups_stays fs fs' f : groups_stay fs fs' f → Forall (stays fs fs') (subnodes f).
Proof. intros H. apply Forall_forall. intros m Hm. destruct m as [| | | | | | | | | | | | | | | | | | | |d c ns t vs| | | |]; try done. destruct ns as [|i [|j ns]]; try done. by eapply H. Qed.
Lemma rc_file_events digest ti fs fs' path f : groups_stay fs fs' f → map bare (file_events digest ti fs' path (rc f)) = map bare (file_events digest ti fs path f).
Proof.
  intros Hg. rewrite <-(un_file_events digest ti fs fs' path f) by (by apply groups_stays). rewrite <-(Hrc f).
  symmetry. apply un_file_events. apply Forall_forall. intros m _. apply stays_refl.
Qed.
Lemma rc_file_shape f : file_package_pos (rc f) = file_package_pos f ∧ file_ident (rc f) = file_ident f.
Proof.
  pose proof (Hrc f) as H.
  assert (S : ∀ n, file_package_pos (U n) = file_package_pos n ∧ file_ident (U n) = file_ident n) by (by intros []).
  destruct (S f) as [<- <-], (S (rc f)) as [<- <-]. by rewrite H.
Qed.
End Rc.

(** *** tables *)
Definition Rt (t t' : ptable) : Prop := ∀ z, mute <$> t' !! z = mute <$> t !! z.
Lemma Rt_refl t : Rt t t. Proof. done. Qed.
Lemma Rt_cases t t' z : Rt t t' → (t !! z = None ∧ t' !! z = None) ∨ ∃ i i', t !! z = Some i ∧ t' !! z = Some i' ∧ mute i' = mute i.
Proof. intros H. specialize (H z). destruct (t !! z) as [i|], (t' !! z) as [i'|]; try done; [right; exists i, i'; repeat split; cbn in H; congruence|by left]. Qed.
Lemma mute_symbol i i' : mute i' = mute i → i_symbol i' = i_symbol i. Proof. intros H. exact (f_equal i_symbol H). Qed.
Lemma mute_rels i i' : mute i' = mute i → i_relationships i' = i_relationships i. Proof. intros H. exact (f_equal i_relationships H). Qed.
Lemma Rt_insert t t' z i i' : Rt t t' → mute i' = mute i → Rt (<[z := i]> t) (<[z := i']> t').
Proof. intros H Hi y. destruct (decide (y = z)) as [->|Hn]; [rewrite !lookup_insert; cbn; by rewrite Hi|rewrite !lookup_insert_ne by done; apply H]. Qed.
Lemma Rt_pset t t' z i i' : Rt t t' → mute i' = mute i → Rt (pset t z i) (pset t' z i').
Proof.
  intros H Hi. unfold pset. destruct (Rt_cases t t' z H) as [[-> ->]|(j & j' & -> & -> & Hj)]; [by apply Rt_insert|].
  rewrite (mute_symbol _ _ Hi), (mute_symbol _ _ Hj). destruct (String.eqb _ _); [done|by apply Rt_insert].
Qed.
Lemma Rt_apply env ti p p' t t' e e' : p_module p' = p_module p → Rt t t' → bare e' = bare e → res_rel Rt (apply_event ti env p t e) (apply_event ti env p' t' e').
Proof.
  intros Hp Ht He. unfold apply_event. assert (e_descs e' = e_descs e ∧ e_ident e' = e_ident e ∧ e_pos e' = e_pos e) as (-> & -> & ->).
  { destruct e, e'. unfold bare in He. cbn in *. by injection He. }
  assert (from_descriptors p' (e_descs e) = from_descriptors p (e_descs e)) as -> by (unfold from_descriptors; by rewrite Hp).
  destruct (from_descriptors p (e_descs e)); [|done]. cbn. by apply Rt_pset.
Qed.
Lemma bare_Forall2 l l' : map bare l' = map bare l → Forall2 (λ e e', bare e' = bare e) l l'.
Proof. revert l'. induction l as [|e l IH]; intros [|e' l']; try done. cbn [map]. intros E. constructor; [exact (f_equal (List.hd (bare e)) E)|]. apply IH. exact (f_equal (@List.tl _) E). Qed.
Lemma Rt_table rc digest env ti fs fs' p : comments_only rc → (∀ f, f ∈ p_syntax p → groups_stay fs fs' f) →
  res_rel Rt (visit_package_table digest ti fs env p) (visit_package_table digest ti fs' env (rc_pkg rc p)).
Proof.
  intros Hrc Hg. unfold visit_package_table. eapply (res_fold_rel Rt (λ e e', bare e' = bare e)); [|intros; by apply Rt_apply|done].
  apply bare_Forall2. unfold package_events. cbn [rc_pkg p_path p_syntax]. apply map_concat_bare. apply Forall_forall. intros f Hf. apply rc_file_events; auto.
Qed.

Definition bare_pkg (p : gpkg) : gpkg := GPkg (p_ptr p) (p_path p) (p_name p) (p_module p) (p_imports p) [] (p_types p) (p_info p).
Definition Re (e e' : gpkg * ptable) : Prop := bare_pkg e'.1 = bare_pkg e.1 ∧ Rt e.2 e'.2.
Record Rg (g g' : global) : Prop := { rg_syms : ∀ id, option_Forall2 Re (g_symbols g !! id) (g_symbols g' !! id); rg_pkgs : g_pkgsyms g' = g_pkgsyms g }.
Lemma Rg_cases g g' id : Rg g g' → (g_symbols g !! id = None ∧ g_symbols g' !! id = None) ∨
  ∃ p t p' t', g_symbols g !! id = Some (p, t) ∧ g_symbols g' !! id = Some (p', t') ∧ bare_pkg p' = bare_pkg p ∧ Rt t t'.
Proof.
  intros H. pose proof (rg_syms _ _ H id) as E. inversion E as [[p t] [p' t'] [H1 H2]|]; [right; by exists p, t, p', t'|by left].
Qed.
Lemma Rg_insert g g' k e e' y : Rg g g' → Re e e' → Rg (Global (<[k := e]> (g_symbols g)) y) (Global (<[k := e']> (g_symbols g')) y).
Proof.
  intros H He. split; [|done]. intros id. cbn [g_symbols]. destruct (decide (id = k)) as [->|Hn]; [rewrite !lookup_insert; by constructor|rewrite !lookup_insert_ne by done; apply H].
Qed.
Lemma Rg_info g g' id z : Rg g g' → (get_info_by_path g id z = None ∧ get_info_by_path g' id z = None) ∨
  ∃ i i', get_info_by_path g id z = Some i ∧ get_info_by_path g' id z = Some i' ∧ mute i' = mute i.
Proof.
  intros H. unfold get_info_by_path, pget. destruct (Rg_cases g g' id H) as [[-> ->]|(p & t & p' & t' & -> & -> & _ & Ht)]; [by left|]. by apply Rt_cases.
Qed.
Lemma bare_compose env c p p' o : bare_pkg p' = bare_pkg p → compose env c (Some p') o = compose env c (Some p) o.
Proof. intros H. unfold compose, pack. assert (p_module p' = p_module p) as -> by exact (f_equal p_module H). done. Qed.
Definition Rlr (r r' : lookup_result * caches) : Prop := r'.2 = r.2 ∧
  match r.1, r'.1 with Found i, Found i' => mute i' = mute i | Skip, Skip | LookupError, LookupError => True | _, _ => False end.
Lemma Rlr_first g g' z l : Rg g g' →
  (first_some (λ id, get_info_by_path g id z) l = None ∧ first_some (λ id, get_info_by_path g' id z) l = None) ∨
  ∃ i i', first_some (λ id, get_info_by_path g id z) l = Some i ∧ first_some (λ id, get_info_by_path g' id z) l = Some i' ∧ mute i' = mute i.
Proof.
  intros H. induction l as [|id l IH]; [by left|]. cbn. destruct (Rg_info g g' id z H) as [[-> ->]|(i & i' & -> & -> & Hi)]; [exact IH|]. right. by exists i, i'.
Qed.
Lemma Rlr_object env g g' k o : Rg g g' → res_rel Rlr (get_symbol_of_object env g k o) (get_symbol_of_object env g' k o).
Proof.
  intros H. unfold get_symbol_of_object. destruct (decide _); [done|].
  assert (HL : ∀ tp, res_rel Rlr (let '(r, c') := lookup_in_package env g (k_composer k) tp o in Ok (r, Caches (k_skipped k) c'))
    (let '(r, c') := lookup_in_package env g' (k_composer k) tp o in Ok (r, Caches (k_skipped k) c'))).
  { intros tp. unfold lookup_in_package. destruct (String.eqb _ _); [done|].
    destruct (Rlr_first g g' (o_pos o) (test_package_combinations (tp_path tp)) H) as [[-> ->]|(i & i' & -> & -> & Hi)]; [|by split].
    destruct (Rg_cases g g' (tp_path tp) H) as [[-> ->]|(p & t & p' & t' & -> & -> & Hp & _)]; [done|]. rewrite (bare_compose env _ p p' _ Hp).
    destruct (compose env (k_composer k) (Some p) (Some o)) as [sym c]. by destruct (String.eqb sym ""). }
  destruct (o_kind o), (o_pkg o) as [tp|]; try done; try apply HL; by destruct (is_error_Error o).
Qed.

(** *** the second pass *)
Section Second.
Context (rc : node → node) (Hrc : comments_only rc) (fs fs' : fset) (Hfs : same_files fs fs') (env : tenv) (ti : tinfo).
Notation K := (rc_pkg rc).
Notation occs_rel := (Forall2 (same_occurrence fs fs')).
Lemma un_qualifier x : qualifier ti (U x) = qualifier ti x. Proof. by destruct x. Qed.
Lemma concat_un g g' l : Forall (λ x, visits g' ti (U x) = visits g ti x) l → List.concat (map (visits g' ti) (map U l)) = List.concat (map (visits g ti) l).
Proof. induction 1 as [|x l Hx _ IH]; [done|]. cbn. by rewrite Hx, IH. Qed.
Lemma un_visits g g' n : g_pkgsyms g' = g_pkgsyms g → visits g' ti (U n) = visits g ti n.
Proof.
  intros Hg. induction n as [i|d c ns t IH|l IH|r p0 f IH|r p0 f IH|p0 a b c IHa IHb IHc|p0 k v IHk IHv|p0 l e IHl IH|p0 v IH|p0 x IH|p0 x IH|p0 x IH|x y IHx IHy|x y IHx IHy|x l IHx IHl|x s IH
    |t b IHt IHb|p0 l IH|r nm p0 s|d nm tp t IHtp IH|d c ns t vs IHt IHvs|p0 k d l IH|d p0 e r nm t b IHr IHt IHb|p0 h d nm l IH|p0 l IH] using node_ind';
    cbn [uncommented visits]; try done; try (by apply concat_un).
  - by rewrite IH.
  - by rewrite IHa, IHb, IHc.
  - by rewrite IHk, IHv.
  - rewrite IH. destruct l as [x|]; [by rewrite IHl|done].
  - by rewrite IHx, IHy.
  - by rewrite IHx, IHy.
  - by rewrite IHx, (concat_un g g' l IHl).
  - rewrite un_qualifier. unfold get_pkg_symbol_by_id. rewrite Hg, IH. done.
  - by rewrite IHt, IHb.
  - by rewrite IHtp, IH.
  - rewrite (concat_un g g' vs IHvs). destruct t as [x|]; [by rewrite IHt|done].
  - rewrite IHt. destruct r as [x|]; [rewrite IHr|]; (destruct b as [y|]; [by rewrite IHb|done]).
Qed.
Lemma rc_visits g g' f : g_pkgsyms g' = g_pkgsyms g → visits g' ti (rc f) = visits g ti f.
Proof. intros Hg. rewrite <-(un_visits g g' f Hg), <-(Hrc f). symmetry. by apply un_visits. Qed.

Record Rs (st st' : fstate) : Prop := { rs_locals : f_locals st' = f_locals st; rs_occs : occs_rel (f_occs st) (f_occs st'); rs_func : f_func st' = f_func st; rs_caches : f_caches st' = f_caches st }.
Lemma Rs_emit st st' o o' : Rs st st' → same_occurrence fs fs' o o' → Rs (emit st o) (emit st' o').
Proof. intros [H1 H2 H3 H4] H. split; try done. cbn. apply Forall2_app; [done|]. constructor; [done|constructor]. Qed.
Lemma text_ident i o : same_text fs fs' (ident_range fs i o) (ident_range fs' i o).
Proof. apply st_span. Qed.
Lemma text_enclosing st st' i : f_func st' = f_func st → same_text fs fs' (enclosing_range fs ti st i) (enclosing_range fs' ti st' i).
Proof. intros H. unfold enclosing_range. rewrite H. destruct (f_func st) as [[[nm a] e]|]; [|constructor]. destruct (Nat.eqb _ _); constructor. Qed.
Lemma same_def s i o st st' d d' : f_func st' = f_func st →
  same_occurrence fs fs' (new_definition s (ident_range fs i o) (enclosing_range fs ti st i) d) (new_definition s (ident_range fs' i o) (enclosing_range fs' ti st' i) d').
Proof. intros H. split; [done|]. split; [done|]. split; [apply text_ident|by apply text_enclosing]. Qed.
Lemma same_ref s i o d d' : same_occurrence fs fs' (new_reference s (ident_range fs i o) d) (new_reference s (ident_range fs' i o) d').
Proof. split; [done|]. split; [done|]. split; [apply text_ident|constructor]. Qed.
Context (g g' : global) (Hg : Rg g g') (p : gpkg) (tbl tbl' : ptable) (Ht : Rt tbl tbl').
Context (imports imports' : string → option gpkg) (Him : ∀ s, imports' s = K <$> imports s).
Lemma Rs_create st st' z o : Rs st st' → res_rel (λ r r', r'.1 = r.1 ∧ Rs r.2 r'.2) (create_local st z o) (create_local st' z o).
Proof. intros [H1 H2 H3 H4]. unfold create_local. rewrite H1. destruct (f_locals st !! z); [done|]. split; [done|]. by split. Qed.
Lemma Rs_def st st' i : Rs st st' → res_rel Rs (visit_def g fs p ti tbl st i) (visit_def g' fs' (K p) ti tbl' st' i).
Proof.
  intros Hs. unfold visit_def. destruct (ti_defs ti (id_ptr i)) as [o|]; [|done]. unfold pget_symbol, get_symbol, pget. change (p_path (K p)) with (p_path p).
  destruct (Rt_cases tbl tbl' (o_pos o) Ht) as [[-> ->]|(a & a' & -> & -> & Ha)]; cbn [fmap option_fmap option_map].
  - destruct (Rg_info g g' (p_path p) (o_pos o) Hg) as [[-> ->]|(a & a' & -> & -> & Ha)]; cbn [fmap option_fmap option_map].
    + pose proof (Rs_create st st' (o_pos o) o Hs) as Hc. destruct (create_local st (o_pos o) o) as [[s s1]|], (create_local st' (o_pos o) o) as [[s' s1']|]; try done.
      cbn in Hc. destruct Hc as [-> Hc]. cbn. apply Rs_emit; [done|]. apply same_def. apply Hc.
    + cbn. rewrite (mute_symbol _ _ Ha). apply Rs_emit; [done|]. apply same_def. apply Hs.
  - cbn. rewrite (mute_symbol _ _ Ha). apply Rs_emit; [done|]. apply same_def. apply Hs.
Qed.
Lemma Rs_ref st st' i : Rs st st' → res_rel Rs (visit_ref env g fs ti st i) (visit_ref env g' fs' ti st' i).
Proof.
  intros Hs. unfold visit_ref. destruct (ti_uses ti (id_ptr i)) as [o|]; [|done]. rewrite (rs_locals _ _ Hs). destruct (f_locals st !! o_pos o) as [l|].
  { apply Rs_emit; [done|apply same_ref]. }
  rewrite (rs_caches _ _ Hs). pose proof (Rlr_object env g g' (f_caches st) o Hg) as H.
  destruct (get_symbol_of_object env g (f_caches st) o) as [[lr k]|], (get_symbol_of_object env g' (f_caches st) o) as [[lr' k']|]; try done. cbn [res_bind].
  destruct H as [E H]. cbn in E, H. subst k'. assert (Hs' : Rs (FState (f_locals st) (f_occs st) (f_func st) k) (FState (f_locals st') (f_occs st') (f_func st') k)) by (by destruct Hs).
  rewrite (rs_locals _ _ Hs) in Hs'. destruct lr, lr'; try done. rewrite (mute_symbol _ _ H). apply Rs_emit; [done|apply same_ref].
Qed.
Lemma import_rel r nm z : occs_rel (import_occurrences g fs ti imports r nm z) (import_occurrences g' fs' ti imports' r nm z).
Proof.
  unfold import_occurrences. destruct (ti_pkgname_of ti r) as [[oi on ok op okd oty og]|]; [|constructor]. cbn. destruct okd; try constructor.
  rewrite Him. destruct (imports imported_path) as [im|]; [|constructor]. cbn. unfold get_pkg_symbol, get_pkg_symbol_by_id. cbn. rewrite (rg_pkgs _ _ Hg). destruct (g_pkgsyms g !! p_path im) as [s|]; [|constructor].
  assert (Hn : ∀ a nm adj, same_occurrence fs fs' (new_reference s (range_from_name (fs_position fs a) nm adj) false) (new_reference s (range_from_name (fs_position fs' a) nm adj) false)).
  { intros. split; [done|]. split; [done|]. split; constructor. }
  apply Forall2_app; [|constructor; [apply Hn|constructor]]. destruct nm as [i|]; [|constructor]. destruct (_ || _)%bool; [constructor|].
  constructor; [apply Hn|constructor].
Qed.
Lemma Rs_step st st' v : Rs st st' → res_rel Rs (Pass2.step env g fs p ti tbl imports st v) (Pass2.step env g' fs' (K p) ti tbl' imports' st' v).
Proof.
  intros Hs. destruct v as [r nm z|x o s|nm a e|i]; cbn [Pass2.step].
  - destruct Hs as [H1 H2 H3 H4]. split; try done. cbn. apply Forall2_app; [done|apply import_rel].
  - apply Rs_emit; [done|apply same_ref].
  - destruct Hs as [H1 H2 H3 H4]. by split.
  - destruct (String.eqb _ _); [done|]. destruct (case_at ti (id_pos i)) as [o|].
    + pose proof (Rs_create st st' (o_pos o) o Hs) as Hc. destruct (create_local st (o_pos o) o) as [[s s1]|], (create_local st' (o_pos o) o) as [[s' s1']|]; try done.
      cbn in Hc. destruct Hc as [-> Hc]. cbn. apply Rs_emit; [done|]. split; [done|]. split; [done|]. split; [apply text_ident|constructor].
    + pose proof (Rs_def st st' i Hs) as Hd. destruct (visit_def g fs p ti tbl st i) as [s1|], (visit_def g' fs' (K p) ti tbl' st' i) as [s1'|]; try done. by apply Rs_ref.
Qed.
Lemma Rs_file po po' k f : same_occurrence fs fs' po po' →
  res_rel Rs (visit_file env g fs p ti tbl imports po k f) (visit_file env g' fs' (K p) ti tbl' imports' po' k (rc f)).
Proof.
  intros Hpo. unfold visit_file. rewrite (rc_visits g g' f (rg_pkgs _ _ Hg)). eapply (res_fold_rel Rs (=)); [apply Forall2_same|intros ? ? ? ? _ ? ->; by apply Rs_step|].
  split; try done. cbn. constructor; [done|constructor].
Qed.
Lemma document_rel objstr rel file to to' lo lo' st st' : Rs st st' → to ≡ₚ map_to_list tbl → to' ≡ₚ map_to_list tbl' → lo ≡ₚ map_to_list (f_locals st) → lo' ≡ₚ map_to_list (f_locals st') →
  recommented_document fs fs' (to_document env fs ti objstr rel file to lo st) (to_document env fs' ti objstr rel file to' lo' st').
Proof.
  intros Hs Ho Ho' Hl Hl'. split; [done|]. split; [apply Hs|]. cbn [to_document d_symbols]. rewrite !List.map_app. apply Permutation_app.
  - rewrite !map_map. assert (E : ∀ l : list (Z * syminfo), map (λ e, mute e.2) (symbols_for_file fs' file l) = map (λ e, mute e.2) (symbols_for_file fs file l)).
    { intros l. f_equal. unfold symbols_for_file. apply list_filter_iff. intros e. by rewrite Hfs. }
    change (map (λ x : Z * syminfo, mute x.2) (symbols_for_file fs file to) ≡ₚ map (λ x : Z * syminfo, mute x.2) (symbols_for_file fs' file to')). rewrite E.
    assert (F : ∀ t : ptable, ∀ l, l ≡ₚ map_to_list t → map (λ e : Z * syminfo, mute e.2) (symbols_for_file fs file l) ≡ₚ
      map (λ e : Z * syminfo, e.2) (symbols_for_file fs file (map_to_list (mute <$> t)))).
    { intros t l El. unfold symbols_for_file. rewrite El. rewrite map_to_list_fmap. clear El. apply reflexive_eq. induction (map_to_list t) as [|[z i] m IH]; [done|].
      cbn [fmap list_fmap prod_map fst snd]. rewrite !filter_cons. cbn [prod_map fst snd]. destruct (decide _); cbn; by rewrite IH. }
    rewrite (F tbl to Ho), (F tbl' to' Ho'). assert (mute <$> tbl' = mute <$> tbl) as ->; [|done]. apply map_eq. intros z. rewrite !lookup_fmap. apply Ht.
  - apply Permutation_map, Permutation_map. by rewrite Hl, Hl', (rs_locals _ _ Hs).
Qed.
End Second.
