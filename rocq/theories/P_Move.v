(** The two passes commute with a move of all positions. *)
From Coq Require Import Ascii String.
From stdpp Require Import prelude strings gmap.
From Verif Require Import GoStr Scip GoTypes Ast Packages Symbols Document Lookup Pass1 Pass2 P_Pass1 Loader SpecMove.
Open Scope string_scope.
Open Scope list_scope.

Definition res_map {A B} (f : A → B) (r : res A) : res B := match r with Ok a => Ok (f a) | Panic m => Panic m end.
Lemma res_fold_map {A A' B B'} (f : A → B → res A) (f' : A' → B' → res A') (ra : A → A') (rb : B → B') (l : list B) :
  (∀ a b, b ∈ l → f' (ra a) (rb b) = res_map ra (f a b)) → ∀ a, res_fold f' (ra a) (map rb l) = res_map ra (res_fold f a l).
Proof.
  induction l as [|b l IH]; intros H a; [done|]. cbn [map res_fold]. rewrite H by left.
  destruct (f a b) as [a'|m]; [|done]. cbn [res_map res_bind]. apply IH. intros ? ? ?. apply H. by right.
Qed.
Lemma map_concat_map {A B C D} (f : A → list B) (f' : C → list D) (ra : A → C) (rb : B → D) (l : list A) :
  Forall (λ a, f' (ra a) = map rb (f a)) l → List.concat (map f' (map ra l)) = map rb (List.concat (map f l)).
Proof. induction 1 as [|a l H _ IH]; [done|]. cbn. by rewrite H, IH, List.map_app. Qed.
Lemma map_eq_map {A B C} (f : A → B) (f' : C → B) (ra : A → C) (l : list A) : (∀ a, f' (ra a) = f a) → map f' (map ra l) = map f l.
Proof. intros H. induction l as [|a l IH]; [done|]. cbn. by rewrite H, IH. Qed.
Lemma find_map {A B} (p : A → bool) (p' : B → bool) (r : A → B) (l : list A) : (∀ a, p' (r a) = p a) →
  List.find p' (map r l) = r <$> List.find p l.
Proof. intros H. induction l as [|a l IH]; [done|]. cbn. rewrite H. by destruct (p a). Qed.
Lemma existsb_map {A B} (p : A → bool) (p' : B → bool) (r : A → B) (l : list A) : (∀ a, p' (r a) = p a) → existsb p' (map r l) = existsb p l.
Proof. intros H. induction l as [|a l IH]; [done|]. cbn. by rewrite H, IH. Qed.

Section Move.
Context (mv back : Z → Z) (Hop : opposite mv back).
Notation N := (mv_node mv).
Notation I := (mv_ident mv).
Notation O := (mv_obj mv).
Lemma mv_cancel z : back (mv z) = z. Proof. apply Hop. Qed.
Lemma mv_zero : mv 0%Z = 0%Z. Proof. apply Hop. Qed.
#[local] Instance mv_inj : Inj (=) (=) mv.
Proof. intros x y E. rewrite <-(mv_cancel x), <-(mv_cancel y). by rewrite E. Qed.
Lemma mv_eqb x y : Z.eqb (mv x) (mv y) = Z.eqb x y.
Proof. destruct (Z.eqb_spec x y) as [->|H]; [by rewrite Z.eqb_refl|]. apply Z.eqb_neq. intros E. apply H. by apply (inj mv). Qed.

(** objects *)
Lemma obj_ind' (P : obj → Prop) : (∀ i n k p kd t, P (Obj i n k p kd t None)) →
  (∀ i n k p kd t g, P g → P (Obj i n k p kd t (Some g))) → ∀ o, P o.
Proof.
  intros H1 H2. refine (fix IH (o : obj) : P o := match o with Obj i n k p kd t og => _ end).
  destruct og as [g|]; [apply H2, IH|apply H1].
Qed.
Lemma mv_obj_cancel o : mv_obj back (mv_obj mv o) = o.
Proof. induction o as [|i n k p kd t g IH] using obj_ind'; cbn; rewrite mv_cancel; [done|by rewrite IH]. Qed.
Lemma mv_o_id o : o_id (O o) = o_id o. Proof. by destruct o. Qed.
Lemma mv_o_name o : o_name (O o) = o_name o. Proof. by destruct o. Qed.
Lemma mv_o_pkg o : o_pkg (O o) = o_pkg o. Proof. by destruct o. Qed.
Lemma mv_o_pos o : o_pos (O o) = mv (o_pos o). Proof. by destruct o. Qed.
Lemma mv_o_kind o : o_kind (O o) = o_kind o. Proof. by destruct o. Qed.
Lemma mv_o_type o : o_type (O o) = o_type o. Proof. by destruct o. Qed.
Lemma mv_origin o : origin (O o) = O (origin o).
Proof. destruct o as [i n k p kd t og]. unfold origin. cbn. destruct kd, og; done. Qed.
Lemma mv_obj_Id o : obj_Id (O o) = obj_Id o. Proof. by destruct o. Qed.
Lemma mv_is_alias o : is_alias (O o) = is_alias o. Proof. by destruct o. Qed.
Lemma mv_kind_for_object env o : kind_for_object env (O <$> o) = kind_for_object env o.
Proof. destruct o as [o|]; [|done]. cbn. by rewrite mv_o_kind, mv_is_alias, mv_o_type. Qed.
Lemma mv_describe env tp o : describe env tp (O o) = describe env tp o.
Proof. unfold describe. by rewrite mv_o_kind, mv_o_name, mv_o_id. Qed.
Lemma mv_pack c p : pack c (mv_pkg mv back <$> p) = pack c p. Proof. by destruct p. Qed.
Lemma mv_compose env c p o : compose env c (mv_pkg mv back <$> p) (O <$> o) = compose env c p o.
Proof.
  destruct o as [o|]; [|done]. unfold compose. cbn [fmap option_fmap option_map]. rewrite mv_o_pkg. destruct (o_pkg o); [|done].
  rewrite mv_origin, mv_o_id, mv_o_pkg. destruct (assoc_nat _ _); [done|]. destruct (o_pkg (origin o)); [|done].
  rewrite mv_describe. by rewrite mv_pack.
Qed.
Lemma mv_is_error_Error o : is_error_Error (O o) = is_error_Error o.
Proof. unfold is_error_Error. by rewrite mv_origin, mv_o_kind, mv_o_name. Qed.

(** nodes *)
Lemma mv_node_pos n : node_pos (N n) = mv (node_pos n).
Proof.
  induction n as [| d c ns t IH | l IH |  |  |  |  |  |  |  |  |  | x y IHx _ | x y IHx _ | x l IHx _ | x s IHx | t b IHt _ |  | r nm p s |  | d c ns t vs _ _ |  |  |  | ] using node_ind'; cbn; try done.
  - destruct ns; cbn; [exact IH|done].
  - destruct IH as [|x l IH _]; cbn; [by rewrite mv_zero|exact IH].
  - by destruct nm.
  - destruct ns; cbn; [by rewrite mv_zero|done].
Qed.
Lemma mv_ident_of_type_expr t : ident_of_type_expr (N t) = map I (ident_of_type_expr t).
Proof. induction t using node_ind'; cbn; done. Qed.

Definition mv_event (e : event) : event := Ev (e_descs e) (N <$> e_parent e) (I (e_ident e)) (mv (e_pos e)).
Notation E := mv_event.

Section Info.
Context (digest : string → string) (ti : tinfo) (fs fs' : fset) (Hfs : mv_fset mv fs fs').
Notation ti' := (mv_info mv back ti).
Lemma mv_fspos z : fs_position fs' (mv z) = fs_position fs z. Proof. apply Hfs. Qed.

Lemma mv_tv n : ∀ m iface cur sc, tv digest ti' m iface (N <$> cur) sc (N n) = map E (tv digest ti m iface cur sc n).
Proof.
  induction n as [i|d c ns t IH|l IH|r p f IH|r p f IH| |p k v IHk IHv|p l e _ IH| |p x IH| | | | | | | | | |d nm tp t _ IH| |p k d l IH| |p h d nm l IH|] using node_ind';
    intros [|] iface cur sc; cbn [mv_node tv]; try done; try (by apply IH).
  - destruct ns as [|i ns].
    + cbn [map]. destruct iface; [apply IH|]. rewrite mv_ident_of_type_expr, !map_map. apply map_ext. done.
    + refine (map_concat_map (λ j, Ev (sc ++ [Desc (id_name j) Term]) (Some (NField d c (i :: ns) t)) j (id_pos j) :: tv digest ti ANON iface cur sc t)
        (λ j, Ev (sc ++ [Desc (id_name j) Term]) (Some (N (NField d c (i :: ns) t))) j (id_pos j) :: tv digest ti' ANON iface (N <$> cur) sc (N t)) I E (i :: ns) _).
      apply Forall_forall. intros j _. cbn [map]. f_equal. apply IH.
  - apply (map_concat_map _ _ N E). eapply Forall_impl; [exact IH|]. intros x Hx. apply Hx.
  - unfold anon_type_key. cbn [ti_canon mv_info]. destruct (ti_canon ti r); [|done]. destruct (String.eqb _ _); [done|apply IH].
  - unfold anon_type_key. cbn [ti_canon mv_info]. destruct (ti_canon ti r); [|done]. destruct (String.eqb _ _); [done|apply IH].
  - by rewrite List.map_app, IHk, IHv.
  - cbn [map]. f_equal. apply IH.
  - apply (map_concat_map _ _ N E). eapply Forall_impl; [exact IH|]. intros x Hx. cbn beta.
    change (Some (NGenDecl (mv p) k d (map N l))) with (N <$> Some (NGenDecl p k d l)).
    replace (match N x with NTypeSpec _ _ _ (NInterfaceType _ _ _) => true | NTypeSpec _ _ _ _ => false | _ => iface end)
      with (match x with NTypeSpec _ _ _ (NInterfaceType _ _ _) => true | NTypeSpec _ _ _ _ => false | _ => iface end); [apply Hx|].
    destruct x as [| | | | | | | | | | | | | | | | | | |? ? ? t| | | | |]; try done. by destruct t.
  - apply (map_concat_map _ _ N E). eapply Forall_impl; [exact IH|]. intros x Hx. apply Hx.
Qed.

Definition mv_vstate (st : vstate) : vstate := VState (N <$> v_cur st) (v_scope st).
Definition mv_vres (r : vstate * list event) : vstate * list event := (mv_vstate r.1, map E r.2).
Lemma mv_seq r k k' : (∀ st, k' (mv_vstate st) = mv_vres (k st)) → seq (mv_vres r) k' = mv_vres (seq r k).
Proof. intros H. destruct r as [st e]. cbn. rewrite H. destruct (k st) as [st' e']. unfold mv_vres. cbn. by rewrite List.map_app. Qed.
Lemma mv_spec_scope_name ns : spec_scope_name fs' (map I ns) = spec_scope_name fs ns.
Proof. destruct ns as [|i [|j ns]]; try done. cbn [map spec_scope_name mv_ident id_pos id_name]. by rewrite mv_fspos. Qed.
Lemma mv_vtype_action t : vtype_action_of (N t) = vtype_action_of t.
Proof. by destruct t. Qed.
Lemma mv_vvl l : Forall (λ x, ∀ m st, vv digest ti' fs' m (N x) (mv_vstate st) = mv_vres (vv digest ti fs m x st)) l →
  ∀ st, vvl digest ti' fs' (map N l) (mv_vstate st) = mv_vres (vvl digest ti fs l st).
Proof.
  induction 1 as [|x l Hx _ IH]; intros st; [done|]. cbn [map]. change (seq (vv digest ti' fs' WALK (N x) (mv_vstate st)) (vvl digest ti' fs' (map N l)) = mv_vres (seq (vv digest ti fs WALK x st) (vvl digest ti fs l))).
  rewrite Hx. by apply mv_seq.
Qed.
Lemma mv_vvnames n t l : (∀ st, vv digest ti' fs' ANON (N t) (mv_vstate st) = mv_vres (vv digest ti fs ANON t st)) →
  ∀ st, vvnames digest ti' fs' (N n) (N t) (map I l) (mv_vstate st) = mv_vres (vvnames digest ti fs n t l st).
Proof.
  intros Ht. induction l as [|i l IH]; intros st; [done|]. cbn [map vvnames].
  rewrite Ht. rewrite <-(mv_seq _ _ _ IH). f_equal. by destruct (vv digest ti fs ANON t st).
Qed.
Lemma mv_anon r : (let '(st', e) := mv_vres r in (v_pop st', e)) = mv_vres (let '(st', e) := r in (v_pop st', e)).
Proof. by destruct r. Qed.

Lemma mv_vv n : ∀ m st, vv digest ti' fs' m (N n) (mv_vstate st) = mv_vres (vv digest ti fs m n st).
Proof.
  induction n as [i|d c ns t IH|l IH|r p f IH|r p f IH|p a b c IHa IHb IHc|p k v IHk IHv|p l e IHl IH|p v IH|p x IH|p x IH|p x IH|x y IHx IHy|x y IHx IHy|x l IHx IHl|x s IH
    |t b IHt IHb|p l IH|r nm p s|d nm tp t IHtp IH|d c ns t vs IHt IHvs|p k d l IH|d p e r nm t b IHr IHt IHb|p h d nm l IH|p l IH] using node_ind';
    intros [|] st; cbn [mv_node vv]; try done; fold (vvl digest ti' fs'); fold (vvl digest ti fs); try (by apply mv_vvl); try (by apply IH).
  - destruct ns as [|i ns].
    + cbn [map]. unfold mv_vres. cbn. f_equal. rewrite mv_ident_of_type_expr, !map_map. apply map_ext. intros j. by rewrite mv_node_pos.
    + exact (mv_vvnames (NField d c (i :: ns) t) t (i :: ns) (IH ANON) st).
  - unfold anon_type_key. cbn [ti_canon mv_info]. destruct (ti_canon ti r); [|done]. destruct (String.eqb _ _); [done|].
    change (v_push (mv_vstate st) ?d) with (mv_vstate (v_push st d)). rewrite IH. apply mv_anon.
  - unfold anon_type_key. cbn [ti_canon mv_info]. destruct (ti_canon ti r); [|done]. destruct (String.eqb _ _); [done|].
    change (v_push (mv_vstate st) ?d) with (mv_vstate (v_push st d)). rewrite IH. apply mv_anon.
  - rewrite IHa. apply mv_seq. intros st1. rewrite IHb. apply mv_seq. intros st2. apply IHc.
  - rewrite IHk. apply mv_seq. intros st1. apply IHv.
  - rewrite IHk. apply mv_seq. intros st1. apply IHv.
  - destruct l as [x|]; [rewrite IHl; apply mv_seq; intros st1; apply IH|]. apply (mv_seq (st, [])). intros st1. apply IH.
  - rewrite IHx. apply mv_seq. intros st1. apply IHy.
  - rewrite IHx. apply mv_seq. intros st1. apply IHy.
  - rewrite IHx. apply mv_seq. intros st1. by apply mv_vvl.
  - rewrite IHt. apply mv_seq. intros st1. apply IHb.
  - rewrite IHtp. apply mv_seq. intros st1. apply IH.
  - destruct ns as [|i ns]; [done|].
    change (match map I (i :: ns) with [] => ?a | _ :: _ => ?b end) with b.
    set (l := i :: ns). rewrite mv_spec_scope_name.
    change (v_push (mv_vstate st) ?d) with (mv_vstate (v_push st d)). set (st1 := v_push st _).
    assert (Hfin : ∀ st2, (let '(st3, e3) := vvl digest ti' fs' (map N vs) (mv_vstate st2) in (v_pop st3, e3)) = mv_vres (let '(st3, e3) := vvl digest ti fs vs st2 in (v_pop st3, e3))).
    { intros st2. rewrite (mv_vvl vs IHvs). apply mv_anon. }
    assert (Hev : map (λ i0 : ident, Ev (v_scope (mv_vstate st) ++ [Desc (id_name i0) Term]) (v_cur (mv_vstate st)) i0 (id_pos i0)) (map I l) =
      map E (map (λ i0 : ident, Ev (v_scope st ++ [Desc (id_name i0) Term]) (v_cur st) i0 (id_pos i0)) l)).
    { rewrite !map_map. by apply map_ext. }
    rewrite Hev.
    assert (Hend : ∀ r, (let '(st', e) := mv_vres r in (st', map E (map (λ i0 : ident, Ev (v_scope st ++ [Desc (id_name i0) Term]) (v_cur st) i0 (id_pos i0)) l) ++ e)) =
       mv_vres (let '(st', e) := r in (st', map (λ i0 : ident, Ev (v_scope st ++ [Desc (id_name i0) Term]) (v_cur st) i0 (id_pos i0)) l ++ e))).
    { intros [st' e]. unfold mv_vres. cbn. by rewrite List.map_app. }
    destruct t as [t|].
    + rewrite mv_vtype_action. destruct (vtype_action_of t).
      * rewrite Hfin. apply Hend.
      * rewrite IHt. rewrite (mv_seq _ _ _ Hfin). apply Hend.
      * apply (Hend (st1, [])).
    + rewrite Hfin. apply Hend.
  - destruct k; try done; exact (mv_vvl l IH (VState (Some (NGenDecl p _ d l)) (v_scope st))).
  - assert (Hb : ∀ st2, match match b with Some x => Some (N x) | None => None end with Some x => vv digest ti' fs' WALK x (mv_vstate st2) | None => (mv_vstate st2, []) end =
      mv_vres (match b with Some x => vv digest ti fs WALK x st2 | None => (st2, []) end)).
    { intros st2. destruct b as [b|]; [apply IHb|done]. }
    destruct r as [r|].
    + rewrite IHr. apply mv_seq. intros st1. rewrite IHt. by apply mv_seq.
    + apply (mv_seq (st, [])). intros st1. rewrite IHt. by apply mv_seq.
Qed.

Lemma mv_base_type_name t : base_type_name (N t) = base_type_name t.
Proof. induction t using node_ind'; cbn; done. Qed.
Lemma mv_receiver r : receiver_type_name (match r with Some x => Some (N x) | None => None end) = receiver_type_name r.
Proof.
  destruct r as [[| |l| | | | | | | | | | | | | | | | | | | | | |]|]; try done. destruct l as [|f l]; [done|]. destruct f; try done. cbn. apply mv_base_type_name.
Qed.
Lemma mv_iface_method_events sc m : iface_method_events sc (N m) = map E (iface_method_events sc m).
Proof.
  destruct m as [| |l| | | | | | | | | | | | | | | | | | | | | |]; try done. cbn. apply (map_concat_map _ _ N E). apply Forall_forall. intros f _.
  destruct f; try done. cbn. rewrite !map_map. by apply map_ext.
Qed.
Definition fvl sc := fix fvs (l : list node) : list event := match l with [] => [] | x :: l' => fv sc x ++ fvs l' end.
Lemma mv_fvl l : Forall (λ x, ∀ sc, fv sc (N x) = map E (fv sc x)) l → ∀ sc, fvl sc (map N l) = map E (fvl sc l).
Proof.
  induction 1 as [|x l Hx _ IH]; intros sc; [done|]. change (fv sc (N x) ++ fvl sc (map N l) = map E (fv sc x ++ fvl sc l)). by rewrite List.map_app, Hx, IH.
Qed.
Lemma mv_fv n : ∀ sc, fv sc (N n) = map E (fv sc n).
Proof.
  induction n as [i|d c ns t IH|l IH|r p f IH|r p f IH|p a b c IHa IHb IHc|p k v IHk IHv|p l e IHl IH|p v IH|p x IH|p x IH|p x IH|x y IHx IHy|x y IHx IHy|x l IHx IHl|x s IH
    |t b IHt IHb|p l IH|r nm p s|d nm tp t IHtp IH|d c ns t vs IHt IHvs|p k d l IH|d p e r nm t b IHr IHt IHb|p h d nm l IH|p l IH] using node_ind';
    intros sc; cbn [mv_node fv]; try done; fold (fvl sc); try (by apply mv_fvl); try (by apply IH); rewrite ?List.map_app.
  - apply mv_iface_method_events.
  - by rewrite IHk, IHv.
  - rewrite IH. destruct l as [x|]; [by rewrite IHl|done].
  - by rewrite IHx, IHy.
  - by rewrite IHx, IHy.
  - by rewrite IHx, (mv_fvl l IHl).
  - by rewrite IHt, IHb.
  - by rewrite IHtp, IH.
  - rewrite (mv_fvl vs IHvs). destruct t as [x|]; [by rewrite IHt|done].
  - rewrite mv_receiver. cbn [map]. f_equal. apply IHt.
Qed.
Lemma mv_decl_events path d : decl_events digest ti' fs' path (N d) = map E (decl_events digest ti fs path d).
Proof.
  destruct d as [| | | | | | | | | | | | | | | | | | | | |p k doc l|d p e r nm t b| |]; try done.
  - assert (H : (vv digest ti' fs' WALK (N (NGenDecl p k doc l)) (VState None (new_scope path))).2 =
      map E (vv digest ti fs WALK (NGenDecl p k doc l) (VState None (new_scope path))).2).
    { exact (f_equal snd (mv_vv (NGenDecl p k doc l) WALK (VState None (new_scope path)))). }
    destruct k; first [done|exact H].
  - exact (mv_fv (NFuncDecl d p e r nm t b) (new_scope path)).
Qed.
Lemma mv_file_events path f : file_events digest ti' fs' path (N f) = map E (file_events digest ti fs path f).
Proof.
  unfold file_events. rewrite List.map_app. rewrite (mv_tv f WALK false None). f_equal.
  destruct f; try done. cbn. apply (map_concat_map _ _ N E). apply Forall_forall. intros d _. apply mv_decl_events.
Qed.

(** documentation *)
Lemma mv_hover_node n : hover_node (N n) = hover_node n.
Proof. by destruct n. Qed.
Lemma mv_declares_ident i s : declares_ident (I i) (N s) = declares_ident i s.
Proof. destruct s; try done. cbn. by apply existsb_map. Qed.
Lemma mv_hover_ident parent i : hover_ident (N <$> parent) (I i) = hover_ident parent i.
Proof.
  destruct parent as [n|]; [|done]. destruct n; try done. cbn -[hover_spec hover_node].
  rewrite (find_map (declares_ident i)) by apply mv_declares_ident. destruct (List.find _ _); [|done]. cbn. unfold hover_spec. by rewrite mv_hover_node.
Qed.
Lemma mv_documentation parent i : documentation (N <$> parent) (I i) = documentation parent i.
Proof. unfold documentation. rewrite mv_hover_ident. destruct parent as [n|]; [|done]. by destruct n. Qed.
Lemma mv_new_symbol_info env sym parent i : new_symbol_info env ti' sym (N <$> parent) (I i) = new_symbol_info env ti sym parent i.
Proof.
  unfold new_symbol_info. cbn [mv_info ti_defs ti_sig mv_ident id_ptr id_name]. rewrite mv_documentation, mv_kind_for_object.
  destruct (ti_defs ti (id_ptr i)) as [o|]; [|done]. cbn. by rewrite mv_obj_cancel.
Qed.

(** tables *)
Definition mv_table (t : ptable) : ptable := kmap mv t.
Lemma mv_lookup (t : ptable) z : mv_table t !! mv z = t !! z.
Proof. apply lookup_kmap. apply _. Qed.
Lemma mv_pset t z i : pset (mv_table t) (mv z) i = mv_table (pset t z i).
Proof.
  unfold pset. rewrite mv_lookup. unfold mv_table. destruct (t !! z); [destruct (String.eqb _ _); [done|]|]; symmetry; apply kmap_insert; apply _.
Qed.
Lemma mv_apply_event env p t e : apply_event ti' env (mv_pkg mv back p) (mv_table t) (E e) = res_map mv_table (apply_event ti env p t e).
Proof.
  unfold apply_event. change (from_descriptors (mv_pkg mv back p) (e_descs (E e))) with (from_descriptors p (e_descs e)).
  destruct (from_descriptors p (e_descs e)); [|done]. cbn [res_bind res_map E e_pos e_parent e_ident]. by rewrite mv_new_symbol_info, mv_pset.
Qed.
Lemma mv_table_empty : mv_table ∅ = ∅.
Proof. apply kmap_empty. Qed.
Lemma mv_package_events p : package_events digest ti' fs' (mv_pkg mv back p) = map E (package_events digest ti fs p).
Proof.
  unfold package_events. cbn [mv_pkg p_path p_syntax]. apply (map_concat_map _ _ N E). apply Forall_forall. intros f _. apply mv_file_events.
Qed.
Lemma mv_visit_package_table env p : visit_package_table digest ti' fs' env (mv_pkg mv back p) = res_map mv_table (visit_package_table digest ti fs env p).
Proof.
  unfold visit_package_table. rewrite mv_package_events. rewrite <-mv_table_empty at 1. apply (res_fold_map _ _ mv_table E). intros. apply mv_apply_event.
Qed.
End Info.

(** *** Looking up symbols *)
Definition mv_entry (e : gpkg * ptable) : gpkg * ptable := (mv_pkg mv back e.1, mv_table e.2).
Definition mv_global (g : global) : global := Global (mv_entry <$> g_symbols g) (g_pkgsyms g).
Notation G := mv_global.
Lemma mv_get_info g id z : get_info_by_path (G g) id (mv z) = get_info_by_path g id z.
Proof. unfold get_info_by_path. cbn. rewrite lookup_fmap. destruct (g_symbols g !! id) as [[p t]|]; [|done]. cbn. apply mv_lookup. Qed.
Lemma mv_get_package g p : get_package (G g) (mv_pkg mv back p) = mv_table <$> get_package g p.
Proof. unfold get_package. cbn. rewrite lookup_fmap. by destruct (g_symbols g !! p_path p) as [[q t]|]. Qed.
Lemma mv_first_some {A} (f f' : string → option A) l : (∀ x, f' x = f x) → first_some f' l = first_some f l.
Proof. intros H. induction l as [|x l IH]; [done|]. cbn. rewrite H. by destruct (f x). Qed.
Lemma mv_get_symbol_of_object env g k o : get_symbol_of_object env (G g) k (O o) = get_symbol_of_object env g k o.
Proof.
  unfold get_symbol_of_object. rewrite mv_obj_Id, mv_o_kind, mv_o_pkg, mv_is_error_Error. destruct (decide _); [done|].
  assert (∀ tp, lookup_in_package env (G g) (k_composer k) tp (O o) = lookup_in_package env g (k_composer k) tp o) as H.
  { intros tp. unfold lookup_in_package. destruct (String.eqb _ _); [done|]. rewrite mv_o_pos.
    rewrite (mv_first_some _ (λ id, get_info_by_path g id (o_pos o))) by (intros; by rewrite mv_get_info).
    destruct (first_some _ _); [done|]. cbn. rewrite lookup_fmap. destruct (g_symbols g !! tp_path tp) as [[p t]|]; [|done]. cbn [fmap option_fmap option_map mv_entry fst].
    pose proof (mv_compose env (k_composer k) (Some p) (Some o)) as Ec. cbn in Ec |- *. by rewrite Ec. }
  destruct (o_kind o), (o_pkg o) as [tp|]; try done; by rewrite H.
Qed.

(** *** The second pass *)
Definition mv_visit (v : visit) : visit :=
  match v with
  | VImport r nm p => VImport r (I <$> nm) (mv p)
  | VQual x o s => VQual (I x) (O o) s
  | VFunc nm p e => VFunc (I nm) (mv p) (mv e)
  | VIdent i => VIdent (I i)
  end.
Definition mv_local (l : local) : local := Local (l_symbol l) (O (l_obj l)).
Definition mv_locals (l : gmap Z local) : gmap Z local := kmap mv (mv_local <$> l).
Definition mv_fstate (st : fstate) : fstate :=
  FState (mv_locals (f_locals st)) (f_occs st) ((λ f, (I f.1.1, mv f.1.2, mv f.2)) <$> f_func st) (f_caches st).
Lemma mv_locals_lookup l z : mv_locals l !! mv z = mv_local <$> l !! z.
Proof. unfold mv_locals. rewrite lookup_kmap by apply _. by rewrite lookup_fmap. Qed.
Lemma kmap_size {A} (m : gmap Z A) : size (kmap mv m : gmap Z A) = size m.
Proof.
  induction m as [|k x m Hk IH] using map_ind; [by rewrite kmap_empty|]. rewrite (kmap_insert mv). rewrite !map_size_insert_None; [by rewrite IH|done|]. by rewrite lookup_kmap by apply _.
Qed.
Lemma mv_locals_size l : size (mv_locals l) = size l.
Proof. unfold mv_locals. rewrite kmap_size. by rewrite map_size_fmap. Qed.
Lemma mv_locals_insert l z x : mv_locals (<[z := x]> l) = <[mv z := mv_local x]> (mv_locals l).
Proof. unfold mv_locals. rewrite fmap_insert. apply kmap_insert. apply _. Qed.

Section Second.
Context (ti : tinfo) (fs fs' : fset) (Hfs : mv_fset mv fs fs') (env : tenv) (g : global) (p : gpkg) (tbl : ptable).
Notation ti' := (mv_info mv back ti).
Context (imports imports' : string → option gpkg) (Him : ∀ s, imports' s = mv_pkg mv back <$> imports s).
Lemma mv_case_at z : case_at ti' (mv z) = O <$> case_at ti z.
Proof. unfold case_at. cbn. apply find_map. intros o. rewrite mv_o_pos. apply mv_eqb. Qed.
Lemma mv_qualifier x : qualifier ti' (N x) = (λ q, (I q.1.1, O q.1.2, q.2)) <$> qualifier ti x.
Proof.
  destruct x; try done. cbn. destruct (ti_uses ti (id_ptr i)) as [o|]; [|done]. cbn. rewrite mv_o_kind. by destruct (o_kind o).
Qed.
Lemma map_visits l : Forall (λ x, visits (G g) ti' (N x) = map mv_visit (visits g ti x)) l →
  List.concat (map (visits (G g) ti') (map N l)) = map mv_visit (List.concat (map (visits g ti) l)).
Proof. apply map_concat_map. Qed.
Lemma mv_visits n : visits (G g) ti' (N n) = map mv_visit (visits g ti n).
Proof.
  induction n as [i|d c ns t IH|l IH|r p0 f IH|r p0 f IH|p0 a b c IHa IHb IHc|p0 k v IHk IHv|p0 l e IHl IH|p0 v IH|p0 x IH|p0 x IH|p0 x IH|x y IHx IHy|x y IHx IHy|x l IHx IHl|x s IH
    |t b IHt IHb|p0 l IH|r nm p0 s|d nm tp t IHtp IH|d c ns t vs IHt IHvs|p0 k d l IH|d p0 e r nm t b IHr IHt IHb|p0 h d nm l IH|p0 l IH] using node_ind';
    cbn [mv_node visits]; try done; try (by apply map_visits); rewrite ?List.map_app.
  - rewrite IH. f_equal. rewrite !map_map. done.
  - by rewrite IHa, IHb, IHc.
  - by rewrite IHk, IHv.
  - rewrite IH. destruct l as [x|]; [by rewrite IHl|done].
  - by rewrite IHx, IHy.
  - by rewrite IHx, IHy.
  - by rewrite IHx, (map_visits l IHl).
  - rewrite mv_qualifier. destruct (qualifier ti x) as [[[i o] path]|]; cbn.
    + unfold get_pkg_symbol_by_id. by destruct (g_pkgsyms g !! path).
    + by rewrite List.map_app, IH.
  - by rewrite IHt, IHb.
  - cbn [map]. by rewrite List.map_app, IHtp, IH.
  - rewrite (map_visits vs IHvs). f_equal; [by rewrite !map_map|]. destruct t as [x|]; [by rewrite IHt|done].
  - cbn [map]. f_equal. rewrite List.map_app. f_equal; [destruct r as [x|]; [by rewrite IHr|done]|].
    cbn [map]. f_equal. rewrite List.map_app, IHt. f_equal. destruct b as [x|]; [by rewrite IHb|done].
Qed.

Lemma mv_ident_range i o : moved_whole mv i → ident_range fs' (I i) (O <$> o) = ident_range fs i o.
Proof.
  intros Hw. unfold ident_range, ident_end, moved_whole in *. cbn [mv_ident id_pos id_name]. rewrite <-Hw, !(mv_fspos _ _ Hfs).
  unfold scip_range. destruct o as [o|]; [|done]. cbn. by rewrite mv_o_kind, mv_o_name.
Qed.
Lemma mv_ident_range_some i o : moved_whole mv i → ident_range fs' (I i) (Some (O o)) = ident_range fs i (Some o).
Proof. exact (mv_ident_range i (Some o)). Qed.
Lemma mv_scip_range a b o : scip_range a b (O <$> o) = scip_range a b o.
Proof. unfold scip_range. destruct o as [o|]; [|done]. cbn. by rewrite mv_o_kind, mv_o_name. Qed.
Lemma mv_enclosing st i : enclosing_range fs' ti' (mv_fstate st) (I i) = enclosing_range fs ti st i.
Proof.
  unfold enclosing_range. cbn. destruct (f_func st) as [[[nm a] e]|]; [|done]. cbn. destruct (Nat.eqb _ _); [|done].
  by rewrite !(mv_fspos _ _ Hfs), mv_scip_range.
Qed.
Lemma mv_is_deprecated z : is_deprecated (G g) (mv_pkg mv back p) (mv_table tbl) (mv z) = is_deprecated g p tbl z.
Proof. unfold is_deprecated, pget. rewrite mv_lookup. by rewrite mv_get_info. Qed.
Lemma mv_import_occurrences r nm z : import_occurrences (G g) fs' ti' imports' r (I <$> nm) (mv z) = import_occurrences g fs ti imports r nm z.
Proof.
  unfold import_occurrences. cbn. destruct (ti_pkgname_of ti r) as [[oi on ok op okd oty og]|]; [|done]. cbn. destruct okd; try done.
  rewrite Him. destruct (imports imported_path) as [im|]; [|done]. cbn.
  unfold get_pkg_symbol, get_pkg_symbol_by_id. cbn. destruct (g_pkgsyms g !! p_path im); [|done].
  rewrite !(mv_fspos _ _ Hfs). destruct nm as [i|]; [|done]. cbn. by rewrite (mv_fspos _ _ Hfs).
Qed.
Lemma mv_create_local st z o : create_local (mv_fstate st) (mv z) (O o) = res_map (λ r, (r.1, mv_fstate r.2)) (create_local st z o).
Proof.
  unfold create_local. cbn. rewrite mv_locals_lookup. destruct (f_locals st !! z); [done|]. cbn. rewrite mv_locals_size. unfold mv_fstate. cbn. by rewrite mv_locals_insert.
Qed.
Lemma mv_emit st oc : emit (mv_fstate st) oc = mv_fstate (emit st oc). Proof. done. Qed.
Lemma mv_visit_def st i : moved_whole mv i →
  visit_def (G g) fs' (mv_pkg mv back p) ti' (mv_table tbl) (mv_fstate st) (I i) = res_map mv_fstate (visit_def g fs p ti tbl st i).
Proof.
  intros Hw. unfold visit_def. change (ti_defs ti' (id_ptr (I i))) with (O <$> ti_defs ti (id_ptr i)). destruct (ti_defs ti (id_ptr i)) as [o|]; [|done]. cbn [fmap option_fmap option_map].
  rewrite mv_o_pos. unfold pget_symbol, get_symbol, pget. rewrite mv_lookup. change (p_path (mv_pkg mv back p)) with (p_path p). rewrite mv_get_info.
  destruct (tbl !! o_pos o); [cbn [fmap option_fmap option_map res_bind res_map]|].
  { by rewrite mv_enclosing, mv_is_deprecated, (mv_ident_range_some i o Hw). }
  destruct (get_info_by_path g (p_path p) (o_pos o)); cbn [fmap option_fmap option_map res_bind res_map].
  { by rewrite mv_enclosing, mv_is_deprecated, (mv_ident_range_some i o Hw). }
  rewrite mv_create_local. destruct (create_local st (o_pos o) o) as [[s st']|]; [|done]. cbn [fmap option_fmap option_map res_bind res_map fst snd].
  by rewrite mv_enclosing, mv_is_deprecated, (mv_ident_range_some i o Hw).
Qed.
Lemma mv_visit_ref st i : moved_whole mv i →
  visit_ref env (G g) fs' ti' (mv_fstate st) (I i) = res_map mv_fstate (visit_ref env g fs ti st i).
Proof.
  intros Hw. unfold visit_ref. change (ti_uses ti' (id_ptr (I i))) with (O <$> ti_uses ti (id_ptr i)). destruct (ti_uses ti (id_ptr i)) as [o|]; [|done]. cbn [fmap option_fmap option_map].
  rewrite mv_o_pos. cbn [mv_fstate f_locals f_caches]. rewrite mv_locals_lookup.
  rewrite (mv_ident_range_some i o Hw).
  destruct (f_locals st !! o_pos o) as [l|]; [done|]. cbn [fmap option_fmap option_map]. rewrite mv_get_symbol_of_object.
  destruct (get_symbol_of_object env g (f_caches st) o) as [[lr k]|]; [|done]. by destruct lr.
Qed.
Lemma mv_step st v : match v with VQual x _ _ => moved_whole mv x | VIdent i => moved_whole mv i | _ => True end →
  Pass2.step env (G g) fs' (mv_pkg mv back p) ti' (mv_table tbl) imports' (mv_fstate st) (mv_visit v) =
  res_map mv_fstate (Pass2.step env g fs p ti tbl imports st v).
Proof.
  intros Hw. destruct v as [r nm z|x o s|nm a e|i]; cbn [mv_visit Pass2.step].
  - rewrite mv_import_occurrences. done.
  - rewrite (mv_ident_range_some x o Hw). done.
  - done.
  - change (id_name (I i)) with (id_name i). destruct (String.eqb _ _); [done|]. change (id_pos (I i)) with (mv (id_pos i)). rewrite mv_case_at.
    destruct (case_at ti (id_pos i)) as [o|]; cbn [fmap option_fmap option_map].
    + rewrite mv_o_pos, mv_create_local. destruct (create_local st (o_pos o) o) as [[s st']|]; [|done]. cbn [res_map res_bind fst snd].
      by rewrite (mv_ident_range_some i o Hw).
    + rewrite mv_visit_def by done. destruct (visit_def g fs p ti tbl st i) as [st'|]; [|done]. cbn [res_map res_bind]. by apply mv_visit_ref.
Qed.
Lemma visits_whole n v : (∀ i, NIdent i ∈ subnodes n → moved_whole mv i) → v ∈ visits g ti n →
  match v with VQual x _ _ => moved_whole mv x | VIdent i => moved_whole mv i | _ => True end.
Proof.
  revert v. induction n using node_ind'; intros v Hw; cbn [visits];
    rewrite ?elem_of_app, ?elem_of_cons, ?elem_of_list_fmap; intros Hv;
    repeat match goal with
      | H : _ ∨ _ |- _ => destruct H as [H|H]
      | H : _ ∈ [] |- _ => by apply elem_of_nil in H
      | H : _ = VFunc _ _ _ |- _ => by rewrite H
      | H : _ = VImport _ _ _ |- _ => by rewrite H
      | H : _ ∈ List.concat (map _ _) |- _ => apply elem_of_concat_map in H as (? & ? & H)
      | H : _ ∈ match ?o with Some _ => _ | None => _ end |- _ => destruct o eqn:?
      | H : _ ∈ _ ++ _ |- _ => apply elem_of_app in H
      | H : _ ∈ _ :: _ |- _ => apply elem_of_cons in H
      end; try done.
  all: try match goal with
    | IH : ∀ v, (∀ i, NIdent i ∈ subnodes ?n → _) → v ∈ visits g ti ?n → _, H : _ ∈ visits g ti ?n |- _ => apply IH; [|exact H]; intros i' Hi'; apply Hw; cbn
    | HF : Forall _ ?l, H' : ?x ∈ ?l, H : _ ∈ visits g ti ?x |- _ => apply (proj1 (Forall_forall _ _) HF x H'); [|exact H]; intros i' Hi'; apply Hw; cbn
    end.
  all: try match goal with H : ∃ y, _ = VIdent y ∧ _ |- _ => destruct H as (? & -> & ?); apply Hw; cbn end.
  all: try match goal with H : _ = VIdent _ |- _ => rewrite H; apply Hw; cbn end.
  all: try (rewrite ?elem_of_cons, ?elem_of_app, ?elem_of_concat_map; set_solver).
  match goal with H : qualifier ti n = Some ?q |- _ => rename H into Eq; destruct q as [[i o] path] end.
  assert (n = NIdent i) as ->. { destruct n; try done. cbn in Eq. destruct (ti_uses ti (id_ptr i0)) as [o'|]; [|done]. destruct (o_kind o'); by simplify_eq. }
  destruct (get_pkg_symbol_by_id g path); [|by apply elem_of_nil in Hv].
  apply elem_of_cons in Hv as [->|Hv]; [apply Hw; cbn; set_solver|]. apply elem_of_list_singleton in Hv as ->. apply Hw. cbn. set_solver.
Qed.
Lemma mv_visit_file po k f : (∀ i, i ∈ node_idents f → moved_whole mv i) →
  visit_file env (G g) fs' (mv_pkg mv back p) ti' (mv_table tbl) imports' po k (N f) =
  res_map mv_fstate (visit_file env g fs p ti tbl imports po k f).
Proof.
  intros Hw. unfold visit_file. rewrite mv_visits.
  assert (FState ∅ [po] None k = mv_fstate (FState ∅ [po] None k)) as E0.
  { unfold mv_fstate, mv_locals. cbn. by rewrite fmap_empty, kmap_empty. }
  rewrite E0 at 1. apply (res_fold_map _ _ mv_fstate mv_visit). intros st v Hv. apply mv_step.
  eapply (visits_whole f); [|exact Hv]. intros i Hi. apply Hw. unfold node_idents. apply elem_of_list_omap. by exists (NIdent i).
Qed.
Lemma mv_local_info objstr objstr' (Hos : ∀ o, objstr' (O o) = objstr o) l : local_info env ti' objstr' (mv_local l) = local_info env ti objstr l.
Proof.
  unfold local_info, signature_text. change (l_obj (mv_local l)) with (O (l_obj l)). change (l_symbol (mv_local l)) with (l_symbol l).
  rewrite (mv_kind_for_object env (Some (l_obj l)) : kind_for_object env (Some (O (l_obj l))) = _).
  rewrite mv_o_pos, mv_case_at, mv_o_kind, mv_o_name, Hos. by destruct (case_at ti (o_pos (l_obj l))).
Qed.
Lemma mv_to_document objstr objstr' (Hos : ∀ o, objstr' (O o) = objstr o) rel file torder lorder st :
  to_document env fs' ti' objstr' rel file (map (λ e, (mv e.1, e.2)) torder) (map (λ e, (mv e.1, mv_local e.2)) lorder) (mv_fstate st) =
  to_document env fs ti objstr rel file torder lorder st.
Proof.
  unfold to_document. cbn. f_equal. f_equal.
  - unfold symbols_for_file. induction torder as [|[z i] l IH]; [done|]. cbn [map]. rewrite !filter_cons. cbn [fst]. rewrite (proj2 Hfs).
    destruct (decide (fs_file fs z = Some file)); cbn; by rewrite IH.
  - rewrite map_map. apply map_ext. intros [z l]. cbn. by apply mv_local_info.
Qed.
End Second.
End Move.
