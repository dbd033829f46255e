(** C82: editing the bodies of functions changes no other document. *)
From Coq Require Import Ascii String.
From stdpp Require Import prelude strings gmap sorting.
From Verif Require Import GoStr Scip GoTypes Ast Packages Symbols Document Lookup Pass1 Pass2 Paths Loader Index
  SpecSymbol SpecDecl SpecLookup SpecOcc SpecIndex P_Symbols P_Pass1 P_Link P_Lookup P_Pass2 P_Occ P_Index P_Move P_Move2 PropDecl PropOcc PropIndex PropDefined PropCross PropSkip PropPart.
Open Scope string_scope.
Open Scope list_scope.

(** *** Specification *)
(** a file without the bodies of its functions *)
Definition bodyless (d : node) : node :=
  match d with NFuncDecl doc p _ r nm t _ => NFuncDecl doc p 0 r nm t None | _ => d end.
Definition outline (f : node) : node :=
  match f with NFile p h doc nm l => NFile p h doc nm (map bodyless l) | _ => f end.

(** what go/types says about the declarations of n did not change: the objects they define and their texts; n is still in
    the same file.  The text can have moved, but not that of a var or const with several names: its line and column are
    part of the symbols of the members of its type. *)
Record same_declarations (fs fs' : fset) (ti ti' : tinfo) (n : node) : Prop := SameDeclarations {
  sd_defs : ∀ i, NIdent i ∈ subnodes n → ti_defs ti' (id_ptr i) = ti_defs ti (id_ptr i);
  sd_sig : ∀ i o, NIdent i ∈ subnodes n → ti_defs ti (id_ptr i) = Some o → ti_sig ti' o = ti_sig ti o;
  sd_canon : ∀ r p l, NStructType r p l ∈ subnodes n ∨ NInterfaceType r p l ∈ subnodes n → ti_canon ti' r = ti_canon ti r;
  sd_file : ∀ m, m ∈ subnodes n → fs_file fs' (node_pos m) = fs_file fs (node_pos m) ∧
    pos_file (fs_position fs' (node_pos m)) = pos_file (fs_position fs (node_pos m));
  sd_group : ∀ d c i j ns t vs, NValueSpec d c (i :: j :: ns) t vs ∈ subnodes n →
    pos_line (fs_position fs' (id_pos i)) = pos_line (fs_position fs (id_pos i)) ∧
    pos_col (fs_position fs' (id_pos i)) = pos_col (fs_position fs (id_pos i)) }.
(** p' is p with other function bodies in some files *)
Record edited_package (fs fs' : fset) (p p' : gpkg) : Prop := EditedPackage {
  ep_path : p_path p' = p_path p; ep_name : p_name p' = p_name p; ep_module : p_module p' = p_module p; ep_imports : p_imports p' = p_imports p;
  ep_syntax : map outline (p_syntax p') = map outline (p_syntax p);
  ep_info : match p_info p, p_info p' with
    | Some ti, Some ti' => ∀ f, f ∈ p_syntax p → same_declarations fs fs' ti ti' (outline f)
    | None, None => True | _, _ => False end }.
(** P' is P with other function bodies in some files *)
Record edited (P P' : project) : Prop := Edited {
  ed_env : pr_env P' = pr_env P; ed_all : pr_all P' = pr_all P; ed_proj : pr_proj P' = pr_proj P;
  ed_heap : ∀ q, agree (edited_package (pr_fs P) (pr_fs P')) (pr_heap P !! q) (pr_heap P' !! q) }.

(** the positions of a node that appear in the index: the ends of names and functions, and imported paths *)
Definition points (n : node) : list Z :=
  match n with
  | NIdent i => [id_pos i; id_pos i + Z.of_nat (slen (id_name i))]%Z
  | NImportSpec _ _ p _ => [p]
  | NFuncDecl _ p e _ _ _ _ => [p; e]
  | _ => [] end.
(** f was not edited: its text is where it was, and its names mean what they meant *)
Record untouched (fs fs' : fset) (ti ti' : tinfo) (f : node) : Prop := Untouched {
  ut_decls : same_declarations fs fs' ti ti' f;
  ut_uses : ∀ i, NIdent i ∈ subnodes f → ti_uses ti' (id_ptr i) = ti_uses ti (id_ptr i);
  ut_imports : ∀ r nm p s, NImportSpec r nm p s ∈ subnodes f → ti_pkgname_of ti' r = ti_pkgname_of ti r;
  ut_case : ∀ i, NIdent i ∈ subnodes f → filter (λ o, o_pos o = id_pos i) (ti_case_objs ti') = filter (λ o, o_pos o = id_pos i) (ti_case_objs ti);
  ut_points : ∀ m z, m ∈ subnodes f → z ∈ points m → fs_position fs' z = fs_position fs z }.

(** *** Proofs: the first pass *)
Lemma Forall_concat_map {A B} (Q : B → Prop) (h : A → list B) l : Forall Q (List.concat (map h l)) ↔ Forall (λ x, Forall Q (h x)) l.
Proof. induction l as [|x l IH]; cbn; [split; constructor|]. by rewrite Forall_app, Forall_cons, IH. Qed.

Section Pass1.
Context (digest : string → string) (ti ti' : tinfo) (fs fs' : fset).
Definition settled (m : node) : Prop :=
  match m with
  | NStructType r _ _ | NInterfaceType r _ _ => ti_canon ti' r = ti_canon ti r
  | NValueSpec _ _ (i :: _ :: _) _ _ => pos_line (fs_position fs' (id_pos i)) = pos_line (fs_position fs (id_pos i)) ∧
    pos_col (fs_position fs' (id_pos i)) = pos_col (fs_position fs (id_pos i))
  | _ => True end.
Lemma same_settled n : same_declarations fs fs' ti ti' n → Forall settled (subnodes n).
Proof.
  intros [_ _ Hc _ Hg]. apply Forall_forall. intros m Hm. destruct m as [| | |r p l|r p l| | | | | | | | | | | | | | | |d c ns t vs| | | |]; try done; cbn.
  - eapply Hc. by left.
  - eapply Hc. by right.
  - destruct ns as [|i [|j ns]]; try done. by eapply Hg.
Qed.
Ltac parts H := cbn [subnodes] in H; repeat first [rewrite Forall_cons in H|rewrite Forall_app in H|rewrite Forall_concat_map in H]; decompose [and] H; clear H.
Lemma concat_map_same {A B} (h h' : A → list B) l : (∀ a, a ∈ l → h' a = h a) → List.concat (map h' l) = List.concat (map h l).
Proof. induction l as [|a l IH]; intros H; [done|]. cbn. rewrite H by left. rewrite IH; [done|]. intros x Hx. apply H. by right. Qed.
Lemma ed_anon r : ti_canon ti' r = ti_canon ti r → anon_type_key digest ti' r = anon_type_key digest ti r.
Proof. unfold anon_type_key. by intros ->. Qed.
Lemma ed_tv n : Forall settled (subnodes n) → ∀ m iface cur sc, tv digest ti' m iface cur sc n = tv digest ti m iface cur sc n.
Proof.
  induction n as [i|d c ns t IH|l IH|r p f IH|r p f IH| |p k v IHk IHv|p l e _ IH| |p x IH| | | | | | | | | |d nm tp t _ IH| |p k d l IH| |p h d nm l IH|] using node_ind';
    intros Hs [|] iface cur sc; cbn [tv]; try done; parts Hs; try (by apply IH).
  - destruct ns as [|i ns]; [destruct iface; [by apply IH|done]|]. apply concat_map_same. intros j _. by rewrite IH.
  - apply concat_map_same. intros x Hx. rewrite Forall_forall in *. by apply IH; [|eauto].
  - rewrite (ed_anon r) by done. destruct (String.eqb _ _); [done|by apply IH].
  - rewrite (ed_anon r) by done. destruct (String.eqb _ _); [done|by apply IH].
  - by rewrite IHk, IHv.
  - f_equal. by apply IH.
  - apply concat_map_same. intros x Hx. rewrite Forall_forall in *. apply IH; eauto.
  - apply concat_map_same. intros x Hx. rewrite Forall_forall in *. apply IH; eauto.
Qed.
Lemma ed_seq r k k' : (∀ st, k' st = k st) → seq r k' = seq r k.
Proof. intros H. destruct r as [st e]. cbn. by rewrite H. Qed.
Notation V' := (vv digest ti' fs').
Notation V := (vv digest ti fs).
Lemma ed_vvl l : Forall (λ x, ∀ m st, V' m x st = V m x st) l → ∀ st, vvl digest ti' fs' l st = vvl digest ti fs l st.
Proof.
  induction 1 as [|x l Hx _ IH]; intros st; [done|].
  change (seq (V' WALK x st) (vvl digest ti' fs' l) = seq (V WALK x st) (vvl digest ti fs l)). rewrite Hx. by apply ed_seq.
Qed.
Lemma ed_vvnames n t l : (∀ st, V' ANON t st = V ANON t st) → ∀ st, vvnames digest ti' fs' n t l st = vvnames digest ti fs n t l st.
Proof. intros Ht. induction l as [|i l IH]; intros st; [done|]. cbn [vvnames]. rewrite Ht. by apply ed_seq. Qed.
Lemma ed_list l : Forall (λ x, Forall settled (subnodes x) → ∀ m st, V' m x st = V m x st) l → Forall (λ x, Forall settled (subnodes x)) l →
  Forall (λ x, ∀ m st, V' m x st = V m x st) l.
Proof. rewrite !Forall_forall. eauto. Qed.
Lemma ed_vv n : Forall settled (subnodes n) → ∀ m st, V' m n st = V m n st.
Proof.
  induction n as [i|d c ns t IH|l IH|r p f IH|r p f IH|p a b c IHa IHb IHc|p k v IHk IHv|p l e IHl IH|p v IH|p x IH|p x IH|p x IH|x y IHx IHy|x y IHx IHy|x l IHx IHl|x s IH
    |t b IHt IHb|p l IH|r nm p s|d nm tp t IHtp IH|d c ns t vs IHt IHvs|p k d l IH|d p e r nm t b IHr IHt IHb|p h d nm l IH|p l IH] using node_ind';
    intros Hs [|] st; cbn [vv]; try done; fold (vvl digest ti' fs'); fold (vvl digest ti fs); parts Hs; try (by apply ed_vvl, ed_list); try (by apply IH).
  - destruct ns as [|i ns]; [done|]. exact (ed_vvnames (NField d c (i :: ns) t) t (i :: ns) ltac:(intros; by apply IH) st).
  - rewrite (ed_anon r) by done. destruct (String.eqb _ _); [done|]. by rewrite IH.
  - rewrite (ed_anon r) by done. destruct (String.eqb _ _); [done|]. by rewrite IH.
  - rewrite IHa by done. apply ed_seq. intros st1. rewrite IHb by done. apply ed_seq. intros st2. by apply IHc.
  - rewrite IHk by done. apply ed_seq. intros st1. by apply IHv.
  - rewrite IHk by done. apply ed_seq. intros st1. by apply IHv.
  - destruct l as [x|]; [rewrite IHl by done|]; apply ed_seq; intros st1; by apply IH.
  - rewrite IHx by done. apply ed_seq. intros st1. by apply IHy.
  - rewrite IHx by done. apply ed_seq. intros st1. by apply IHy.
  - rewrite IHx by done. apply ed_seq. intros st1. by apply ed_vvl, ed_list.
  - rewrite IHt by done. apply ed_seq. intros st1. by apply IHb.
  - rewrite IHtp by done. apply ed_seq. intros st1. by apply IH.
  - destruct ns as [|i ns]; [done|].
    assert (En : spec_scope_name fs' (i :: ns) = spec_scope_name fs (i :: ns)).
    { destruct ns as [|j ns]; [done|]. cbn [spec_scope_name]. match goal with H : settled (NValueSpec _ _ _ _ _) |- _ => cbn in H; destruct H as [-> ->] end. done. }
    rewrite En. assert (Hv : ∀ st2, vvl digest ti' fs' vs st2 = vvl digest ti fs vs st2) by (by apply ed_vvl, ed_list).
    destruct t as [t|]; [|by rewrite Hv]. destruct (vtype_action_of t); [by rewrite Hv| |done].
    rewrite IHt by done. rewrite (ed_seq (V WALK t _) (λ st2, let '(st3, e3) := vvl digest ti fs vs st2 in (v_pop st3, e3))); [done|]. intros st2. by rewrite Hv.
  - destruct k; try done; by apply ed_vvl, ed_list.
  - assert (Hb : ∀ st2, match b with Some x => V' WALK x st2 | None => (st2, []) end = match b with Some x => V WALK x st2 | None => (st2, []) end).
    { intros st2. destruct b as [b|]; [by apply IHb|done]. }
    destruct r as [r|]; [rewrite IHr by done|]; apply ed_seq; intros st1; (rewrite IHt by done); by apply ed_seq.
Qed.

(** the same event, found at a declaration with the same documentation *)
Definition same_event (e e' : event) : Prop :=
  e_descs e' = e_descs e ∧ e_ident e' = e_ident e ∧ e_pos e' = e_pos e ∧ documentation (e_parent e') (e_ident e) = documentation (e_parent e) (e_ident e).
Lemma same_event_refl l : Forall2 same_event l l.
Proof. induction l; by repeat constructor. Qed.
Lemma bodyless_cases d d' : bodyless d' = bodyless d → d' = d ∨ ∃ doc p e e' r nm t b b', d = NFuncDecl doc p e r nm t b ∧ d' = NFuncDecl doc p e' r nm t b'.
Proof.
  destruct d, d'; cbn; intros E; try discriminate E; try (by left). right. injection E as -> -> -> -> ->. by repeat eexists.
Qed.
Lemma ed_fv path doc p e e' r nm t b b' : Forall2 same_event (fv (new_scope path) (NFuncDecl doc p e r nm t b)) (fv (new_scope path) (NFuncDecl doc p e' r nm t b')).
Proof. cbn [fv]. constructor; [by split_and!|apply same_event_refl]. Qed.
Lemma ed_decl path d d' : bodyless d' = bodyless d → Forall settled (subnodes (bodyless d)) →
  Forall2 same_event (decl_events digest ti fs path d) (decl_events digest ti' fs' path d').
Proof.
  intros Hd Hs. destruct (bodyless_cases _ _ Hd) as [->|(doc & p & e & e' & r & nm & t & b & b' & -> & ->)]; [|apply ed_fv].
  destruct d as [| | | | | | | | | | | | | | | | | | | | |p k doc l|doc p e r nm t b| |]; cbn [decl_events]; try constructor.
  - destruct k; try constructor; rewrite ed_vv by done; apply same_event_refl.
  - by split_and!.
  - apply same_event_refl.
Qed.
Lemma ed_walk d d' : bodyless d' = bodyless d → Forall settled (subnodes (bodyless d)) → ∀ iface cur sc,
  tv digest ti' WALK iface cur sc d' = tv digest ti WALK iface cur sc d.
Proof.
  intros Hd Hs iface cur sc. destruct (bodyless_cases _ _ Hd) as [->|(doc & p & e & e' & r & nm & t & b & b' & -> & ->)]; [|done].
  destruct d; try done; by apply ed_tv.
Qed.
Lemma ed_file path f f' : outline f' = outline f → Forall settled (subnodes (outline f)) →
  Forall2 same_event (file_events digest ti fs path f) (file_events digest ti' fs' path f').
Proof.
  intros Hf Hs. unfold file_events.
  assert (Hother : outline f = f → outline f' = f' → Forall2 same_event (tv digest ti WALK false None (new_scope path) f) (tv digest ti' WALK false None (new_scope path) f')).
  { intros E E'. rewrite E, E' in Hf. subst f'. rewrite E in Hs. rewrite ed_tv by done. apply same_event_refl. }
  destruct f as [| | | | | | | | | | | | | | | | | | | | | | |pp h doc nm l|], f' as [| | | | | | | | | | | | | | | | | | | | | | |pp' h' doc' nm' l'|]; cbn [outline] in Hf; try discriminate Hf;
    try (apply Forall2_app; [by apply Hother|constructor]).
  injection Hf as -> -> -> -> Hl. cbn [outline subnodes] in Hs. parts Hs. clear Hother.
  apply Forall2_app.
  - cbn [tv]. replace (List.concat (map (tv digest ti' WALK false None (new_scope path)) l')) with (List.concat (map (tv digest ti WALK false None (new_scope path)) l)); [apply same_event_refl|].
    match goal with H : Forall (λ x, Forall settled (subnodes x)) _ |- _ => revert l' Hl H end. clear.
    induction l as [|d l IH]; intros [|d' l'] Hl Hs; try discriminate; [done|]. cbn in Hl, Hs. injection Hl as Hd Hl. apply Forall_cons in Hs as [Hs1 Hs2].
    cbn. by rewrite (ed_walk d d'), (IH l').
  - match goal with H : Forall (λ x, Forall settled (subnodes x)) _ |- _ => revert l' Hl H end. clear.
    induction l as [|d l IH]; intros [|d' l'] Hl Hs; try discriminate; [constructor|]. cbn in Hl, Hs. injection Hl as Hd Hl. apply Forall_cons in Hs as [Hs1 Hs2].
    cbn. apply Forall2_app; [by apply ed_decl|by apply IH].
Qed.
End Pass1.

Lemma declared_name_sub m i : i ∈ declared_names m → NIdent i ∈ subnodes m.
Proof.
  destruct m; cbn [declared_names]; try (by intros ?%elem_of_nil); intros Hi; apply (subnodes_child _ (NIdent i)); try apply subnodes_self; cbn [node_children].
  - apply elem_of_app. left. by apply elem_of_list_fmap_1.
  - apply elem_of_list_singleton in Hi as ->. left.
  - apply elem_of_app. left. by apply elem_of_list_fmap_1.
  - apply elem_of_list_singleton in Hi as ->. apply elem_of_app. right. left.
Qed.
Lemma origin_sub n e : PropDefined.origin n e → NIdent (e_ident e) ∈ subnodes n.
Proof.
  intros [(m & Hm & Hi & _)|(d & c & t & Hm & Ht & _)].
  - eapply subnodes_trans; [exact Hm|]. by apply declared_name_sub.
  - eapply subnodes_trans; [exact Hm|]. eapply (subnodes_child _ t); [child_mem|]. by apply type_name_sub.
Qed.
Lemma outline_idem f : outline (outline f) = outline f.
Proof. destruct f; try done. cbn. f_equal. rewrite map_map. apply map_ext. by intros []. Qed.
Lemma event_outline digest ti fs path f e : e ∈ file_events digest ti fs path f → NIdent (e_ident e) ∈ subnodes (outline f) ∧ e_pos e ∈ poss (outline f).
Proof.
  intros He. assert (Hs : Forall (settled ti ti fs fs) (subnodes (outline f))).
  { apply Forall_forall. intros m _. destruct m; try done. by destruct names as [|? []]. }
  pose proof (ed_file digest ti ti fs fs path f (outline f) (outline_idem f) Hs) as HF.
  apply elem_of_list_lookup in He as [k Hk]. destruct (Forall2_lookup_l _ _ _ _ _ HF Hk) as (e' & Hk' & _ & <- & <- & _).
  apply elem_of_list_lookup_2 in Hk'. split; [|by eapply file_events_poss].
  destruct (package_events_origin digest ti fs (GPkg 0 path "" None [] [outline f] None None) e') as (f' & Hf' & Ho).
  - unfold package_events. cbn. by rewrite List.app_nil_r.
  - apply elem_of_list_singleton in Hf' as ->. by apply origin_sub.
Qed.

Lemma insert_by_ext {A} (key key' : A → nat) x l : key' x = key x → (∀ a, a ∈ l → key' a = key a) → insert_by key' x l = insert_by key x l.
Proof.
  intros Hx. induction l as [|y l IH]; intros Hl; [done|]. cbn. rewrite Hx, (Hl y) by left. rewrite IH; [done|]. intros a Ha. apply Hl. by right.
Qed.
Lemma stable_sort_ext {A} (key key' : A → nat) l : (∀ a, a ∈ l → key' a = key a) → stable_sort key' l = stable_sort key l.
Proof.
  induction l as [|x l IH]; intros Hl; [done|]. unfold stable_sort in *. cbn [foldr]. rewrite IH by (intros a Ha; apply Hl; by right).
  apply insert_by_ext; [apply Hl; left|]. intros a Ha. apply Hl. right.
  change (foldr (insert_by key) [] l) with (stable_sort key l) in Ha. by rewrite (stable_sort_perm key l) in Ha.
Qed.

Section Table.
Context (digest : string → string) (env : tenv) (fs fs' : fset) (p p' : gpkg) (Hed : edited_package fs fs' p p').
Definition outline_docs (fx : fset) (name : string) (l : list node) : list string :=
  map file_doc (stable_sort (λ f, file_relevance name (pos_file (fs_position fx (file_package_pos f)))) (List.filter file_has_doc l)).
Lemma docs_outline fx q : find_package_docs fx q = outline_docs fx (p_name q) (map outline (p_syntax q)).
Proof.
  unfold find_package_docs, outline_docs. rewrite (filter_map file_has_doc) by (by intros []).
  rewrite (stable_sort_map (λ f, file_relevance (p_name q) (pos_file (fs_position fx (file_package_pos f)))) _ outline) by (by intros []).
  symmetry. apply map_eq_map. by intros [].
Qed.
Lemma ed_docs ti ti' : p_info p = Some ti → p_info p' = Some ti' → find_package_docs fs' p' = find_package_docs fs p.
Proof.
  intros E E'. rewrite !docs_outline, (ep_name _ _ _ _ Hed), (ep_syntax _ _ _ _ Hed). unfold outline_docs. f_equal.
  apply stable_sort_ext. intros f Hf. rewrite elem_of_list_In, filter_In, <-elem_of_list_In in Hf. destruct Hf as [Hf Hd].
  apply elem_of_list_fmap in Hf as (f0 & -> & Hf0). pose proof (ep_info _ _ _ _ Hed) as H. rewrite E, E' in H.
  destruct (outline f0) as [| | | | | | | | | | | | | | | | | | | | | | |pp h doc nm l|] eqn:Eo; try done.
  specialize (H f0 Hf0). destruct (sd_file _ _ _ _ _ H (outline f0)) as [_ H2]; [apply subnodes_self|]. rewrite Eo in H2. cbn in H2 |- *. by rewrite H2.
Qed.
Lemma ed_events ti ti' : p_info p = Some ti → p_info p' = Some ti' →
  Forall2 same_event (package_events digest ti fs p) (package_events digest ti' fs' p').
Proof.
  intros E E'. unfold package_events. rewrite (ep_path _ _ _ _ Hed). pose proof (ep_info _ _ _ _ Hed) as H. rewrite E, E' in H.
  pose proof (ep_syntax _ _ _ _ Hed) as Hs. revert H Hs. generalize (p_syntax p') as l'. induction (p_syntax p) as [|f l IH]; intros [|f' l'] H Hs; try discriminate; [constructor|].
  cbn in Hs. injection Hs as Hf Hs. cbn [map List.concat]. apply Forall2_app.
  - apply ed_file; [done|]. apply same_settled, H. left.
  - apply IH; [|done]. intros x Hx. apply H. by right.
Qed.
Lemma ed_puts ti ti' m : p_info p = Some ti → p_info p' = Some ti' → ∀ t : ptable,
  foldl (put ti' env m) t (package_events digest ti' fs' p') = foldl (put ti env m) t (package_events digest ti fs p).
Proof.
  intros E E'. pose proof (ed_events ti ti' E E') as HF. pose proof (ep_info _ _ _ _ Hed) as H. rewrite E, E' in H.
  assert (Hi : Forall (λ e, ∃ f, f ∈ p_syntax p ∧ NIdent (e_ident e) ∈ subnodes (outline f)) (package_events digest ti fs p)).
  { apply Forall_forall. intros e (f & Hf & He)%elem_of_concat_map. exists f. split; [done|]. by eapply event_outline. }
  revert Hi. induction HF as [|e e' l l' (E1 & E2 & E3 & E4) _ IH]; intros Hi t; [done|]. apply Forall_cons in Hi as [(f & Hf & Hi1) Hi2]. cbn [foldl]. rewrite IH by done. f_equal.
  unfold put. rewrite E3. f_equal. unfold event_info, new_symbol_info. rewrite E1, E2, E4. specialize (H f Hf). rewrite (sd_defs _ _ _ _ _ H _ Hi1).
  f_equal. destruct (ti_defs ti (id_ptr (e_ident e))) as [o|] eqn:Eo; [|done]. by rewrite (sd_sig _ _ _ _ _ H _ _ Hi1 Eo).
Qed.
(** the table of a package is its table before the edit *)
Lemma ed_table t t' : pass1_table digest env fs p t → pass1_table digest env fs' p' t' → t' = t.
Proof.
  unfold pass1_table. pose proof (ep_syntax _ _ _ _ Hed) as Hs.
  pose proof (ep_info _ _ _ _ Hed) as H. pose proof (ed_docs) as Hd. pose proof (ed_puts) as Hp.
  destruct (p_syntax p) as [|f l] eqn:Es, (p_syntax p') as [|f' l'] eqn:Es'; try discriminate; [congruence|].
  destruct (p_info p) as [ti|] eqn:Ei, (p_info p') as [ti'|] eqn:Ei'; try done.
  intros (t0 & m & E & Em & ->) (t0' & m' & E' & Em' & ->). rewrite (ep_module _ _ _ _ Hed) in Em'. assert (m' = m) as -> by congruence.
  unfold visit_package_table in E, E'. rewrite (res_fold_put ti env p m) in E by done. rewrite (res_fold_put ti' env p' m) in E' by (by rewrite (ep_module _ _ _ _ Hed)).
  rewrite (Hp ti ti' m) in E' by done. assert (t0' = t0) as -> by congruence.
  rewrite (Hd ti ti'), (ep_path _ _ _ _ Hed), (ep_name _ _ _ _ Hed) by done.
  assert (file_ident f' = file_ident f) as ->; [|done]. cbn in Hs. injection Hs as Hf _.
  destruct f, f'; cbn in Hf; try discriminate; try done. by injection Hf.
Qed.
(** the recorded positions are in the outline of the files *)
Lemma ed_keys ti t z : (∀ f, f ∈ p_syntax p → ∃ pp h d nm l, f = NFile pp h d nm l) → p_info p = Some ti → pass1_table digest env fs p t → t !! z ≠ None →
  ∃ f m, f ∈ p_syntax p ∧ m ∈ subnodes (outline f) ∧ node_pos m = z.
Proof.
  unfold pass1_table. intros Hfile Ei. rewrite Ei. destruct (p_syntax p) as [|f l] eqn:Es; [intros ->; by rewrite lookup_empty|].
  intros (t0 & m & E & Em & ->) Hz. destruct (decide (z = id_pos (file_ident f))) as [->|Hne].
  - destruct (Hfile f ltac:(left)) as (pp & h & d & nm & l0 & ->). eexists _, (NIdent nm). split; [left|]. split; [|done]. cbn. right. left.
  - rewrite pset_other in Hz by done. unfold visit_package_table in E. rewrite (res_fold_put ti env p m) in E by done. injection E as <-.
    apply foldl_put_dom in Hz as [Hz|(e & He & <-)]; [by rewrite lookup_empty in Hz|].
    apply elem_of_concat_map in He as (f1 & Hf1 & He). destruct (event_outline _ _ _ _ _ _ He) as [_ Hp]. apply elem_of_list_fmap in Hp as (n & -> & Hn).
    exists f1, n. rewrite Es in Hf1. done.
Qed.
End Table.

Section Edit.
Context (digest : string → string) (P P' : project) (Hed : edited P P') (root version version' : string).
Context (Hix : indexable (pr_objs P) (pr_fs P) (pr_heap P) (pr_all P) (pr_proj P) (pr_pkgs P)).
Context (Hix' : indexable (pr_objs P') (pr_fs P') (pr_heap P') (pr_all P') (pr_proj P') (pr_pkgs P')).
Context (g0 g g0' g' : global).
Context (Ht : tables_ok digest (pr_env P) (pr_fs P) (pr_heap P) (pr_all P) (pr_pkgs P) g0) (Hs : same_tables g0 g).
Context (Ht' : tables_ok digest (pr_env P') (pr_fs P') (pr_heap P') (pr_all P') (pr_pkgs P') g0') (Hs' : same_tables g0' g').
Notation same_pkg := (edited_package (pr_fs P) (pr_fs P')).

Lemma eh q p : pr_heap P !! q = Some p → ∃ p', pr_heap P' !! q = Some p' ∧ same_pkg p p'.
Proof. intros H. pose proof (ed_heap _ _ Hed q) as Ha. rewrite H in Ha. unfold agree in Ha. destruct (pr_heap P' !! q) as [p'|]; [|done]. by exists p'. Qed.
Lemma in_pkgs k : k ∈ map p_path (pr_pkgs P) ↔ is_Some (pr_proj P !! k).
Proof. destruct (ix_order _ _ _ _ _ _ Hix) as [[Hl _] _]. apply Hl. Qed.
Lemma in_pkgs' k : k ∈ map p_path (pr_pkgs P') ↔ is_Some (pr_proj P !! k).
Proof. destruct (ix_order _ _ _ _ _ _ Hix') as [[Hl _] _]. rewrite <-(ed_proj _ _ Hed). apply Hl. Qed.
Lemma ed_pkg p : p ∈ pr_pkgs P → ∃ p', p' ∈ pr_pkgs P' ∧ same_pkg p p'.
Proof.
  intros Hp. destruct (ix_order _ _ _ _ _ _ Hix) as [_ Hin]. destruct (Hin p Hp) as (q & Hq & Hh). destruct (eh q p Hh) as (p' & Hh' & Hsp).
  exists p'. split; [|done]. assert (Hk : p_path p ∈ map p_path (pr_pkgs P')) by (apply in_pkgs'; eauto).
  apply elem_of_list_fmap in Hk as (p2 & E & Hp2). destruct (ix_order _ _ _ _ _ _ Hix') as [_ Hin']. destruct (Hin' p2 Hp2) as (q2 & Hq2 & Hh2).
  rewrite (ed_proj _ _ Hed), <-E, Hq in Hq2. injection Hq2 as <-. rewrite Hh' in Hh2. by injection Hh2 as ->.
Qed.
Lemma ed_syms k : g_pkgsyms g' !! k = g_pkgsyms g !! k.
Proof.
  rewrite <-(proj1 Hs), <-(proj1 Hs'). destruct (pr_all P !! k) as [q|] eqn:Eq.
  - destruct (ix_loaded _ _ _ _ _ _ Hix) as (Hka & _). destruct (Hka _ _ Eq) as (p & m & Hh & _ & Hm). destruct (eh q p Hh) as (p' & Hh' & Hsp).
    rewrite (tk_syms _ _ _ _ _ _ _ Ht _ _ _ _ Eq Hh Hm). eapply tk_syms; [exact Ht'|by rewrite (ed_all _ _ Hed)|exact Hh'|by rewrite (ep_module _ _ _ _ Hsp)].
  - rewrite (tk_nosym _ _ _ _ _ _ _ Ht _ Eq). eapply tk_nosym; [exact Ht'|by rewrite (ed_all _ _ Hed)].
Qed.
Definition same_entry (e e' : gpkg * ptable) : Prop := same_pkg e.1 e'.1 ∧ ∀ pos, agree same_info (e.2 !! pos) (e'.2 !! pos).
Lemma ed_entry k : agree same_entry (g_symbols g !! k) (g_symbols g' !! k).
Proof.
  assert (X : ∀ p p' t, same_pkg p p' → g_symbols g0 !! k = Some (p, t) → g_symbols g0' !! k = Some (p', t) → agree same_entry (g_symbols g !! k) (g_symbols g' !! k)).
  { intros p p' t Hsp E E'. destruct (same_tables_lookup _ _ _ _ _ Hs E) as (t1 & -> & H). destruct (same_tables_lookup _ _ _ _ _ Hs' E') as (t1' & -> & H').
    split; [done|]. intros pos. specialize (H pos). specialize (H' pos). cbn [snd fst]. unfold agree.
    destruct (t !! pos) as [i0|], (t1 !! pos) as [i|], (t1' !! pos) as [i'|]; try done.
    destruct H as (?&?&?&?&?&?), H' as (?&?&?&?&?&?). split_and!; congruence. }
  destruct (decide (k ∈ map p_path (pr_pkgs P))) as [Hk|Hk].
  - apply elem_of_list_fmap in Hk as (p & -> & Hp). destruct (ed_pkg p Hp) as (p' & Hp' & Hsp).
    destruct (tk_proj _ _ _ _ _ _ _ Ht p Hp) as (t0 & E0 & H0). destruct (tk_proj _ _ _ _ _ _ _ Ht' p' Hp') as (t0' & E0' & H0').
    rewrite (ed_env _ _ Hed) in H0'. rewrite (ed_table _ _ _ _ _ _ Hsp _ _ H0 H0') in E0'. rewrite (ep_path _ _ _ _ Hsp) in E0'. by eapply X.
  - assert (Hk' : k ∉ map p_path (pr_pkgs P')) by (by rewrite in_pkgs', <-in_pkgs). destruct (pr_all P !! k) as [q|] eqn:Eq.
    + destruct (ix_loaded _ _ _ _ _ _ Hix) as (Hka & _). destruct (Hka _ _ Eq) as (p & m & Hh & _). destruct (eh q p Hh) as (p' & Hh' & Hsp).
      eapply X; [exact Hsp|by eapply tk_all|]. eapply tk_all; [exact Ht'|by rewrite (ed_all _ _ Hed)|done|done].
    + pose proof (tk_none _ _ _ _ _ _ _ Ht _ Eq Hk) as E. assert (Eq' : pr_all P' !! k = None) by (by rewrite (ed_all _ _ Hed)).
      pose proof (tk_none _ _ _ _ _ _ _ Ht' _ Eq' Hk') as E'.
      assert (N : ∀ a b : global, same_tables a b → g_symbols a !! k = None → g_symbols b !! k = None).
      { intros a b [_ H] Ea. specialize (H k). rewrite Ea in H. destruct (g_symbols b !! k); done. }
      by rewrite (N _ _ Hs E), (N _ _ Hs' E').
Qed.
Lemma ed_recorded c pos : (∃ i i', recorded g c pos i ∧ recorded g' c pos i' ∧ same_info i i') ∨ unrecorded g c pos ∧ unrecorded g' c pos.
Proof.
  pose proof (ed_entry c) as H. unfold agree in H. destruct (g_symbols g !! c) as [[p t]|] eqn:E, (g_symbols g' !! c) as [[p' t']|] eqn:E'; try done.
  - destruct H as [_ H]. specialize (H pos). cbn in H. unfold agree in H. destruct (t !! pos) as [i|] eqn:Ei, (t' !! pos) as [i'|] eqn:Ei'; try done.
    + left. exists i, i'. split; [by exists p, t|]. split; [by exists p', t'|done].
    + right. split; intros j (pp & tt & E1 & E2); congruence.
  - right. split; intros j (pp & tt & E1 & E2); congruence.
Qed.
Lemma ed_module k p t : g_symbols g !! k = Some (p, t) → ∃ m, p_module p = Some m.
Proof.
  intros E. pose proof (loaded_symbols digest P g0 g k Hix Ht Hs) as H. destruct (pr_all P !! k); [|congruence].
  destruct H as (? & p1 & m & t1 & _ & _ & E1 & Em). rewrite E in E1. injection E1 as -> ->. by exists m.
Qed.
Lemma ed_resolves o r : resolves (pr_env P) root version g o r → ∃ r', resolves (pr_env P') root version' g' o r' ∧ same_result r r'.
Proof.
  intros Hr. rewrite (ed_env _ _ Hed).
  assert (HR : ∀ c i, recorded g c (o_pos o) i → ∃ i', recorded g' c (o_pos o) i' ∧ same_info i i').
  { intros c i Hi. destruct (ed_recorded c (o_pos o)) as [(a & b & Ha & Hb & Hab)|[Hu _]]; [|by destruct (Hu i)].
    exists b. split; [done|]. destruct Hi as (? & ? & E1 & E2), Ha as (? & ? & E3 & E4). assert (i = a) as -> by congruence. done. }
  assert (HU : ∀ c, unrecorded g c (o_pos o) → unrecorded g' c (o_pos o)).
  { intros c Hu. destruct (ed_recorded c (o_pos o)) as [(a & b & Ha & _)|[_ Hu']]; [by destruct (Hu a)|done]. }
  destruct Hr as [H|H|tp H1 H2|tp i H1 H2 H3 H4 H5|tp i H1 H2 H3 H4 H5 H6|tp i H1 H2 H3 H4 H5 H6 H7|tp p t H1 H2 H3 H4 H5 H6 H7 H8 H9|tp H1 H2 H3 H4 H5 H6 H7 H8].
  - exists Skip. split; [by apply rs_label|done].
  - exists Skip. split; [by apply rs_universe|done].
  - exists Skip. split; [by eapply rs_unsafe|done].
  - destruct (HR _ i H5) as (i' & Hi' & Hii). exists (Found i'). split; [by eapply rs_own|done].
  - destruct (HR _ i H6) as (i' & Hi' & Hii). exists (Found i'). split; [|done]. eapply rs_test; try done. by apply HU.
  - destruct (HR _ i H7) as (i' & Hi' & Hii). exists (Found i'). split; [|done]. eapply rs_variant; try done; by apply HU.
  - pose proof (ed_entry (tp_path tp)) as He. rewrite H8 in He. unfold agree in He. destruct (g_symbols g' !! tp_path tp) as [[p' t']|] eqn:E'; [|done].
    destruct He as [Hsp _]. cbn in Hsp. destruct (ed_module _ _ _ H8) as [m Em]. pose proof (ep_module _ _ _ _ Hsp) as Em'. rewrite Em in Em'.
    rewrite (composed_ext _ root version root version' p p' m o Em Em') in H9 |- *.
    eexists. split; [eapply rs_composed; try done; by apply HU|by split_and!].
  - exists LookupError. split; [|done]. eapply rs_error; try done; [by apply HU..|].
    intros p' t' E'. pose proof (ed_entry (tp_path tp)) as He. rewrite E' in He. unfold agree in He. destruct (g_symbols g !! tp_path tp) as [[p t]|] eqn:E; [|done].
    destruct He as [Hsp _]. cbn in Hsp. destruct (ed_module _ _ _ E) as [m Em]. pose proof (ep_module _ _ _ _ Hsp) as Em'. rewrite Em in Em'.
    rewrite <-(composed_ext _ root version root version' p p' m o Em Em'). by eapply H8.
Qed.
Lemma ed_lk o : go_object (pr_objs P) o → go_object (pr_objs P') o →
  same_result (lk (pr_env P) root version g o) (lk (pr_env P') root version' g' o).
Proof.
  intros Ho Ho'. destruct (answer_history (pr_env P) (pr_objs P) g root version [] o) as (k & r & _ & _ & E); [constructor|done|].
  assert (R : resolves (pr_env P) root version g o (lk (pr_env P) root version g o)).
  { apply (answer_resolves (pr_env P) (pr_objs P) g root version o _ Ho). unfold lk. by rewrite E. }
  destruct (ed_resolves _ _ R) as (r' & R' & Hr). apply (answer_resolves (pr_env P') (pr_objs P') g' root version' o _ Ho') in R'.
  unfold lk at 2. by rewrite R'.
Qed.

(** one file that was not edited *)
Context (p p' : gpkg) (Hp : p ∈ pr_pkgs P) (Hp' : p' ∈ pr_pkgs P') (Hsp : same_pkg p p') (ti ti' : tinfo) (Hti : p_info p = Some ti) (Hti' : p_info p' = Some ti').
Context (tbl tbl' : ptable) (Hg : g_symbols g !! p_path p = Some (p, tbl)) (Hg' : g_symbols g' !! p_path p' = Some (p', tbl')).
Lemma ef_table pos : agree same_info (tbl !! pos) (tbl' !! pos).
Proof.
  pose proof (ed_entry (p_path p)) as H. rewrite (ep_path _ _ _ _ Hsp) in Hg'. rewrite Hg, Hg' in H. by destruct H as [_ H].
Qed.
Lemma ef_registered pos : agree same_info (registered g p tbl pos) (registered g' p' tbl' pos).
Proof. unfold registered. rewrite Hg, Hg'. pose proof (ef_table pos) as H. destruct (tbl !! pos), (tbl' !! pos); done. Qed.
Lemma ef_import path : agree (λ a b, p_path b = p_path a) (imports_of (pr_heap P) p path) (imports_of (pr_heap P') p' path).
Proof.
  unfold imports_of. rewrite (ep_imports _ _ _ _ Hsp). destruct (List.find _ _) as [e|]; [|done]. pose proof (ed_heap _ _ Hed e.2) as H. unfold agree in *.
  destruct (pr_heap P !! e.2), (pr_heap P' !! e.2); try done. apply (ep_path _ _ _ _ H).
Qed.
(** the recorded positions are still in the same files *)
Lemma ef_key z : tbl !! z ≠ None → fs_file (pr_fs P') z = fs_file (pr_fs P) z.
Proof.
  intros Hz. destruct (tk_proj _ _ _ _ _ _ _ Ht p Hp) as (t0 & E0 & H0). destruct (same_tables_lookup _ _ _ _ _ Hs E0) as (t1 & E1 & H1).
  rewrite Hg in E1. injection E1 as <-. assert (Hz0 : t0 !! z ≠ None). { specialize (H1 z). destruct (t0 !! z), (tbl !! z); done. }
  destruct (ed_keys digest (pr_env P) (pr_fs P) p ti t0 z) as (f & m & Hf & Hm & <-); [|done|done|done|].
  - intros f Hf. destruct (tpj_info _ _ _ _ (ix_typed _ _ _ _ _ _ Hix) p f Hp Hf) as (tj & n & _ & Htf & _). apply (wff_file _ _ _ _ (tf_wf _ _ _ _ _ Htf)).
  - pose proof (ep_info _ _ _ _ Hsp) as H. rewrite Hti, Hti' in H. by apply (sd_file _ _ _ _ _ (H f Hf)).
Qed.
Lemma ef_symbols fl to to' : to ≡ₚ map_to_list tbl → to' ≡ₚ map_to_list tbl' →
  map unrelated (map snd (symbols_for_file (pr_fs P') fl to')) ≡ₚ map unrelated (map snd (symbols_for_file (pr_fs P) fl to)).
Proof.
  intros Hto Hto'. rewrite <-(same_unrelated_symbols (pr_fs P) fl tbl tbl' to to' ef_table Hto Hto').
  assert (Hk : ∀ e, e ∈ to' → fs_file (pr_fs P') e.1 = fs_file (pr_fs P) e.1).
  { intros [z i] Hin. rewrite Hto' in Hin. apply elem_of_map_to_list in Hin. apply ef_key. pose proof (ef_table z) as H. rewrite Hin in H. cbn in *. by destruct (tbl !! z). }
  assert (symbols_for_file (pr_fs P') fl to' = symbols_for_file (pr_fs P) fl to') as ->; [|done]. unfold symbols_for_file. clear -Hk.
  induction to' as [|e l IH]; [done|]. rewrite !filter_cons, (Hk e) by left. rewrite IH; [done|]. intros x Hx. apply Hk. by right.
Qed.
Lemma ef_name f f' : f ∈ p_syntax p → f' ∈ p_syntax p' → outline f' = outline f → fs_file (pr_fs P') (file_package_pos f') = fs_file (pr_fs P) (file_package_pos f).
Proof.
  intros Hf Hf' Ho. assert (X : ∀ x, file_package_pos x = file_package_pos (outline x)) by (by intros []). rewrite (X f'), (X f), Ho.
  destruct (tpj_info _ _ _ _ (ix_typed _ _ _ _ _ _ Hix) p f Hp Hf) as (tj & n & _ & Htf & _). destruct (wff_file _ _ _ _ (tf_wf _ _ _ _ _ Htf)) as (pp & h & doc & nm & decls & E).
  pose proof (ep_info _ _ _ _ Hsp) as H. rewrite Hti, Hti' in H. destruct (sd_file _ _ _ _ _ (H f Hf) (outline f)) as [Hfile _]; [apply subnodes_self|]. by rewrite E in Hfile |- *.
Qed.

Context (f : node) (Hf : f ∈ p_syntax p) (Hf' : f ∈ p_syntax p') (Hut : untouched (pr_fs P) (pr_fs P') ti ti' f).
Notation inside n := (n ∈ subnodes f) (only parsing).
Lemma ef_pos m z : inside m → z ∈ points m → fs_position (pr_fs P') z = fs_position (pr_fs P) z.
Proof. apply (ut_points _ _ _ _ _ Hut). Qed.
Lemma ef_span i : inside (NIdent i) → ident_span (pr_fs P') i = ident_span (pr_fs P) i.
Proof. intros Hi. unfold ident_span. rewrite !(ef_pos (NIdent i)); [done|done|by right; left|done|by left]. Qed.
Lemma ef_names i : inside (NIdent i) → names_package ti' i = names_package ti i.
Proof. intros Hi. unfold names_package. by rewrite (ut_uses _ _ _ _ _ Hut i Hi). Qed.
Lemma ef_hidden par : (∀ n, par = Some n → inside n) → hidden g' ti' par = hidden g ti par.
Proof.
  unfold hidden. destruct par as [par|]; [|done]. intros Hin. specialize (Hin par eq_refl). destruct par; try done.
  match goal with |- context [match ?x with NIdent _ => _ | _ => _ end] => destruct x; try done end.
  rewrite ef_names. 2:{ eapply subnodes_trans; [exact Hin|]. eapply subnodes_child; [|apply subnodes_self]. left. }
  destruct (names_package ti i) as [[o path]|] eqn:E; [|done]. by rewrite ed_syms.
Qed.
Lemma find_filter z (l : list obj) : List.find (λ o, Z.eqb (o_pos o) z) l = head (filter (λ o, o_pos o = z) l).
Proof.
  induction l as [|o l IH]; [done|]. cbn [List.find]. rewrite filter_cons. destruct (Z.eqb_spec (o_pos o) z) as [E|E]; [by rewrite decide_True|]. by rewrite decide_False.
Qed.
Lemma ef_case i : inside (NIdent i) → case_at ti' (id_pos i) = case_at ti (id_pos i).
Proof. intros Hi. unfold case_at. by rewrite !find_filter, (ut_case _ _ _ _ _ Hut i Hi). Qed.
Lemma ef_switch i : inside (NIdent i) → switch_object ti' i = switch_object ti i.
Proof. apply ef_case. Qed.
Lemma ef_defs i : inside (NIdent i) → ti_defs ti' (id_ptr i) = ti_defs ti (id_ptr i).
Proof. apply (sd_defs _ _ _ _ _ (ut_decls _ _ _ _ _ Hut)). Qed.
(** a node of the file and its parent *)
Definition at_node (e : option node * node) : Prop := inside e.2 ∧ ∀ n, e.1 = Some n → inside n.
Lemma ef_local_def e : at_node e → local_def g' p' ti' tbl' e = local_def g p ti tbl e.
Proof.
  intros [Hi Hpar]. unfold local_def, plain_ident. destruct e as [par n]. cbn in Hi, Hpar. destruct n; try done. rewrite (ef_hidden par Hpar).
  destruct (hidden g ti par); [done|]. rewrite (ef_names i Hi). destruct (names_package ti i); [done|]. destruct (String.eqb _ _); [done|].
  rewrite (ef_switch i Hi). destruct (switch_object ti i); [done|]. rewrite (ef_defs i Hi). destruct (ti_defs ti (id_ptr i)) as [d|]; [|done].
  pose proof (ef_registered (o_pos d)) as H. unfold agree in H. destruct (registered g p tbl (o_pos d)), (registered g' p' tbl' (o_pos d)); done.
Qed.
Lemma ef_nodes_in e : e ∈ file_nodes f → at_node e.
Proof.
  destruct (tpj_info _ _ _ _ (ix_typed _ _ _ _ _ _ Hix) p f Hp Hf) as (tj & n & _ & Htf & _). destruct (wff_file _ _ _ _ (tf_wf _ _ _ _ _ Htf)) as (pp & h & doc & nm & decls & E).
  unfold file_nodes. rewrite E at 2. cbn [file_decls]. intros (d & Hd & He)%elem_of_concat_map. destruct e as [par n'].
  assert (Hsub : ∀ x, x ∈ subnodes d → inside x). { intros x Hx. rewrite E. apply (subnodes_child _ d); [by right|done]. }
  apply with_parent_elem in He as [[-> ->]|(m & -> & Hm & Hc)]; split; cbn.
  - apply Hsub, subnodes_self.
  - intros x [= <-]. apply subnodes_self.
  - apply Hsub. eapply subnodes_trans; [exact Hm|]. eapply subnodes_child; [exact Hc|apply subnodes_self].
  - intros x [= <-]. by apply Hsub.
Qed.
Lemma ef_local_defs : local_defs g' p' ti' tbl' f = local_defs g p ti tbl f.
Proof.
  unfold local_defs. assert (Hin : ∀ e, e ∈ file_nodes f → at_node e) by apply ef_nodes_in. revert Hin.
  induction (file_nodes f) as [|e l IH]; intros Hin; [done|]. cbn. rewrite (ef_local_def e) by (apply Hin; left). rewrite IH; [done|]. intros x Hx. apply Hin. by right.
Qed.
Lemma ef_imports ptr nm pp s : inside (NImportSpec ptr nm pp s) →
  import_refs g' (pr_fs P') ti' (imports_of (pr_heap P') p') ptr nm pp = import_refs g (pr_fs P) ti (imports_of (pr_heap P) p) ptr nm pp.
Proof.
  intros Hi. unfold import_refs. rewrite (ut_imports _ _ _ _ _ Hut _ _ _ _ Hi). destruct (ti_pkgname_of ti ptr) as [o|]; [|done]. destruct (o_kind o); try done.
  pose proof (ef_import imported_path) as H. unfold agree in H. destruct (imports_of (pr_heap P) p imported_path) as [a|], (imports_of (pr_heap P') p' imported_path) as [b|]; try done.
  rewrite H, ed_syms. destruct (g_pkgsyms g !! p_path a); [|done]. rewrite (ef_pos _ pp Hi) by left.
  destruct nm as [i|]; [|done]. rewrite (ef_pos (NIdent i) (id_pos i)); [done| |left].
  eapply subnodes_trans; [exact Hi|]. eapply subnodes_child; [|apply subnodes_self]. left.
Qed.
Lemma ef_def_occs n par i : inside (NIdent i) → (∀ m, par = Some m → inside m) → def_occs g' (pr_fs P') p' ti' tbl' n par i = def_occs g (pr_fs P) p ti tbl n par i.
Proof.
  intros Hi Hpar. unfold def_occs. rewrite (ef_defs i Hi), (ef_span i Hi). destruct (ti_defs ti (id_ptr i)) as [d|]; [|done].
  assert (Ee : enclosing (pr_fs P') par i = enclosing (pr_fs P) par i).
  { unfold enclosing. destruct par as [m|]; [|done]. specialize (Hpar m eq_refl). destruct m; try done.
    rewrite !(ef_pos _ _ Hpar); [done|by right; left|by left]. }
  rewrite Ee. pose proof (ef_registered (o_pos d)) as H. unfold agree in H. destruct (registered g p tbl (o_pos d)), (registered g' p' tbl' (o_pos d)); try done.
  destruct H as (-> & -> & _). done.
Qed.
Lemma ef_use_occs known i : inside (NIdent i) → names_package ti i = None →
  use_occs (pr_fs P') ti' (lk (pr_env P') root version' g') known i = use_occs (pr_fs P) ti (lk (pr_env P) root version g) known i.
Proof.
  intros Hi Hn. unfold use_occs. rewrite (ef_span i Hi), (ut_uses _ _ _ _ _ Hut i Hi). destruct (ti_uses ti (id_ptr i)) as [o|] eqn:Eu; [|done]. destruct (local_symbol _ _); [done|].
  assert (Hk : ∀ path, o_kind o ≠ OPkgName path). { intros path Ek. unfold names_package in Hn. by rewrite Eu, Ek in Hn. }
  destruct (tpj_info _ _ _ _ (ix_typed _ _ _ _ _ _ Hix) p f Hp Hf) as (tj & n & Hj & Htf & _). assert (tj = ti) as -> by congruence. clear Hj.
  destruct (tpj_info _ _ _ _ (ix_typed _ _ _ _ _ _ Hix') p' f Hp' Hf') as (tj & n' & Hj & Htf' & _). assert (tj = ti') as -> by congruence. clear Hj.
  assert (Eu' : ti_uses ti' (id_ptr i) = Some o) by (by rewrite (ut_uses _ _ _ _ _ Hut i Hi)).
  pose proof (ed_lk o (tf_uses _ _ _ _ _ Htf _ _ Eu Hk) (tf_uses _ _ _ _ _ Htf' _ _ Eu' Hk)) as Hr.
  destruct (lk (pr_env P) root version g o), (lk (pr_env P') root version' g' o); try done. destruct Hr as (-> & -> & _). done.
Qed.
Lemma ef_node before e : at_node e →
  node_occs g' (pr_fs P') p' ti' tbl' (imports_of (pr_heap P') p') (lk (pr_env P') root version' g') before e =
  node_occs g (pr_fs P) p ti tbl (imports_of (pr_heap P) p) (lk (pr_env P) root version g) before e.
Proof.
  intros He. pose proof (ef_local_def e He) as Hl. destruct e as [par n]. destruct He as [Hi Hpar]. cbn in Hi, Hpar. destruct n; try done.
  - cbn [node_occs]. rewrite (ef_hidden par Hpar), (ef_names i Hi), (ef_span i Hi). destruct (hidden g ti par); [done|].
    destruct (names_package ti i) as [[o path]|] eqn:En; [by rewrite ed_syms|].
    destruct (String.eqb _ _); [done|]. rewrite (ef_switch i Hi). destruct (switch_object ti i); [done|].
    by rewrite (ef_def_occs _ par i Hi Hpar), Hl, ef_use_occs.
  - cbn [node_occs]. by eapply ef_imports.
Qed.
Lemma ef_nodes l : (∀ e, e ∈ l → at_node e) → ∀ before,
  nodes_occs g' (pr_fs P') p' ti' tbl' (imports_of (pr_heap P') p') (lk (pr_env P') root version' g') before l =
  nodes_occs g (pr_fs P) p ti tbl (imports_of (pr_heap P) p) (lk (pr_env P) root version g) before l.
Proof.
  induction l as [|e l IH]; intros Hin before; [done|]. cbn [nodes_occs]. rewrite (ef_node before e), (ef_local_def e) by (apply Hin; left).
  rewrite IH; [done|]. intros x Hx. apply Hin. by right.
Qed.
End Edit.

Lemma table_symbols_global fs fl (t : ptable) to : (∀ pos i, t !! pos = Some i → is_global (i_symbol i)) → to ≡ₚ map_to_list t →
  ∀ i, i ∈ map snd (symbols_for_file fs fl to) → ¬ is_local (i_symbol i).
Proof.
  intros Hg Hto i Hi. apply elem_of_list_fmap in Hi as ([z j] & -> & He). apply elem_of_list_filter in He as [_ He]. rewrite Hto in He. apply elem_of_map_to_list in He.
  apply global_not_local. by eapply Hg.
Qed.
Lemma filter_all {A} (Q : A → Prop) `{!∀ x, Decision (Q x)} (l : list A) : (∀ x, x ∈ l → Q x) → filter Q l = l.
Proof. induction l as [|x l IH]; intros Hall; [done|]. rewrite filter_cons_True by (apply Hall; left). f_equal. apply IH. intros y Hy. apply Hall. by right. Qed.
Lemma filter_nothing {A} (Q : A → Prop) `{!∀ x, Decision (Q x)} (l : list A) : (∀ x, x ∈ l → ¬ Q x) → filter Q l = [].
Proof. induction l as [|x l IH]; intros Hall; [done|]. rewrite filter_cons_False by (apply Hall; left). apply IH. intros y Hy. apply Hall. by right. Qed.

(** the two documents of a file *)
Lemma edited_documents digest objstr root P P' msgs msgs' p p' f f' ti ti' :
  edited P P' → indexed_as digest objstr root P msgs → indexed_as digest objstr root P' msgs' →
  p ∈ pr_pkgs P → p' ∈ pr_pkgs P' → p_path p' = p_path p → p_info p = Some ti → p_info p' = Some ti' →
  f ∈ p_syntax p → f' ∈ p_syntax p' → outline f' = outline f →
  ∃ d d', document_of (pr_pkgs P) (documents msgs) p f d ∧ document_of (pr_pkgs P') (documents msgs') p' f' d' ∧
    d_path d' = d_path d ∧
    map unrelated (filter (λ i, ¬ is_local (i_symbol i)) (d_symbols d')) ≡ₚ map unrelated (filter (λ i, ¬ is_local (i_symbol i)) (d_symbols d)) ∧
    (f' = f → untouched (pr_fs P) (pr_fs P') ti ti' f → d_occs d' = d_occs d ∧ map unrelated (d_symbols d') ≡ₚ map unrelated (d_symbols d)).
Proof.
  intros Hed (mo & version & impl & ie & po & ao & po2 & skip & meta & w & Hix & Hmo & K1 & K2 & K3 & Hic & Hrun)
    (mo' & version' & impl' & ie' & po' & ao' & po2' & skip' & meta' & w' & Hix' & Hmo' & K1' & K2' & K3' & Hic' & Hrun') Hp Hp' Epath Hti Hti' Hf Hf' Hout.
  destruct (success _ _ _ _ _ _ _ _ _ _ _ _ _ _ _ _ _ _ _ _ Hix Hmo K1 K2 K3 Hic msgs Hrun) as (ds & exts & g0 & g & kk & -> & Htab & _ & Hst & Hds).
  destruct (success _ _ _ _ _ _ _ _ _ _ _ _ _ _ _ _ _ _ _ _ Hix' Hmo' K1' K2' K3' Hic' msgs' Hrun') as (ds' & exts' & g0' & g' & kk' & -> & Htab' & _ & Hst' & Hds').
  assert (Hsp : edited_package (pr_fs P) (pr_fs P') p p').
  { destruct (ed_pkg P P' Hed Hix Hix' p Hp) as (p2 & Hp2 & Hsp). assert (p2 = p') as ->; [|done].
    eapply (same_path P'); [apply (ix_order _ _ _ _ _ _ Hix')|done|done|]. rewrite (ep_path _ _ _ _ Hsp). done. }
  assert ((p, f) ∈ files_in_order (pr_pkgs P)) as [a Ha]%elem_of_list_lookup by by apply files_elem.
  assert ((p', f') ∈ files_in_order (pr_pkgs P')) as [b Hb]%elem_of_list_lookup by by apply files_elem.
  destruct (Forall2_lookup_l _ _ _ _ _ Hds Ha) as (d & Hd & Hdoc). destruct (Forall2_lookup_l _ _ _ _ _ Hds' Hb) as (d' & Hd' & Hdoc'). cbn in Hdoc, Hdoc'.
  exists d, d'. split; [exists a; by rewrite documents_msgs|]. split; [exists b; by rewrite documents_msgs|].
  destruct Hdoc as (tj & tbl & st & sym & name & to & lo & H1 & H2 & H3 & H4 & H5 & H6 & H7 & ->). assert (tj = ti) as -> by congruence.
  destruct Hdoc' as (tj & tbl' & st' & sym' & name' & to' & lo' & H1' & H2' & H3' & H4' & H5' & H6' & H7' & ->). assert (tj = ti') as -> by congruence.
  pose proof (ef_name P P' Hix p p' Hp Hsp ti ti' Hti Hti' f f' Hf Hf' Hout) as En.
  unfold file_of in H2, H2'. rewrite En, H2 in H2'. injection H2' as <-.
  assert (sym' = sym) as ->.
  { pose proof (ed_syms digest P P' Hed Hix g0 g g0' g' Htab Hst Htab' Hst' (p_path p)) as E. rewrite (ep_path _ _ _ _ Hsp) in H4'. congruence. }
  destruct (tpj_info _ _ _ _ (ix_typed _ _ _ _ _ _ Hix) p f Hp Hf) as (tj & ? & Hj & Htf & Hdi & _). assert (tj = ti) as -> by congruence. clear Hj.
  destruct (tpj_info _ _ _ _ (ix_typed _ _ _ _ _ _ Hix') p' f' Hp' Hf') as (tj & ? & Hj & Htf' & _). assert (tj = ti') as -> by congruence. clear Hj.
  destruct (visited_occs _ _ _ _ _ _ _ _ _ _ _ _ _ Htf (lk_answers _ _ root version g _ _ _ _ Htf) st H5) as (_ & O & I).
  destruct (visited_occs _ _ _ _ _ _ _ _ _ _ _ _ _ Htf' (lk_answers _ _ root version' g' _ _ _ _ Htf') st' H5') as (_ & O' & I').
  pose proof (ef_symbols digest P P' Hed Hix Hix' g0 g g0' g' Htab Hst Htab' Hst' p p' Hp Hsp ti ti' Hti Hti' tbl tbl' H3 H3' name to to' H6 H6') as Hsym.
  split; [done|]. split.
  - assert (global_symbols g tbl) as [G1 _] by exact (final_global digest (pr_env P) (pr_objs P) (pr_fs P) (pr_heap P) (pr_all P) (pr_proj P) (pr_pkgs P) Hix g0 g p tbl Htab Hst Hp H3). assert (global_symbols g' tbl') as [G1' _] by exact (final_global digest (pr_env P') (pr_objs P') (pr_fs P') (pr_heap P') (pr_all P') (pr_proj P') (pr_pkgs P') Hix' g0' g' p' tbl' Htab' Hst' Hp' H3').
    cbn [to_document d_symbols]. rewrite !filter_app.
    rewrite (filter_all _ (map snd (symbols_for_file (pr_fs P) name to))) by (exact (table_symbols_global _ _ tbl to G1 H6)).
    rewrite (filter_all _ (map snd (symbols_for_file (pr_fs P') name to'))) by (exact (table_symbols_global _ _ tbl' to' G1' H6')).
    assert (L : ∀ (X : project) tx (lx : list (Z * local)) locals env objs path v gx sx, inv env objs path v gx locals sx → lx ≡ₚ map_to_list (f_locals sx) →
      filter (λ i, ¬ is_local (i_symbol i)) (map (λ l : Z * local, local_info (pr_env X) tx objstr l.2) lx) = []).
    { intros X tx lx locals env objs path v gx sx Hinv Hlx. apply filter_nothing. intros i Hi Hn. apply Hn. apply elem_of_list_fmap in Hi as ([z l] & -> & He).
      rewrite Hlx in He. apply elem_of_map_to_list in He. rewrite (iv_locals _ _ _ _ _ _ _ Hinv) in He. destruct (index_of z _) as [k|]; [|done].
      destruct (_ !! k); [|done]. injection He as <-. apply local_name_local. }
    rewrite (L P ti lo _ _ _ _ _ _ _ I H7), (L P' ti' lo' _ _ _ _ _ _ _ I' H7'), !List.app_nil_r. exact Hsym.
  - intros -> Hut.
    pose proof (ef_local_defs digest P P' Hed Hix Hix' g0 g g0' g' Htab Hst Htab' Hst' p p' Hp Hsp ti ti' tbl tbl' H3 H3' f Hf Hut) as EL.
    assert (El : f_locals st' = f_locals st).
    { apply map_eq. intros pos. by rewrite (iv_locals _ _ _ _ _ _ _ I), (iv_locals _ _ _ _ _ _ _ I'), EL. }
    split.
    + cbn [to_document d_occs]. rewrite O, O'. f_equal.
      * unfold clause_occurrence. f_equal. f_equal. apply (ef_pos P P' ti ti' f Hut (NIdent (file_ident f))); [|left].
        destruct (wff_file _ _ _ _ (tf_wf _ _ _ _ _ Htf)) as (pp & h & doc & nm & decls & ->). cbn. right. left.
      * apply (ef_nodes digest P P' Hed root version version' Hix Hix' g0 g g0' g' Htab Hst Htab' Hst' p p' Hp Hp' Hsp ti ti' Hti Hti' tbl tbl' H3 H3' f Hf Hf' Hut).
        intros e He. by eapply (ef_nodes_in P Hix p Hp).
    + cbn [to_document d_symbols]. rewrite !List.map_app. apply Permutation_app; [exact Hsym|].
      assert (lo' ≡ₚ lo) as -> by (by rewrite H7, H7', El). rewrite (ed_env _ _ Hed).
      match goal with |- map unrelated (map ?F lo) ≡ₚ map unrelated (map ?G lo) => assert (map F lo = map G lo) as ->; [|done] end. apply map_ext_in. intros [z l] Hin. apply elem_of_list_In in Hin. rewrite H7 in Hin. apply elem_of_map_to_list in Hin.
      rewrite (iv_locals _ _ _ _ _ _ _ I) in Hin. destruct (index_of z _) as [k|]; [|done]. destruct (_ !! k) as [[z0 o0]|] eqn:Ek; [|done]. injection Hin as <-.
      apply elem_of_list_lookup_2 in Ek. unfold local_defs in Ek. apply elem_of_list_omap in Ek as (e & He & Ee).
      destruct (ef_nodes_in P Hix p Hp f Hf e He) as [Hsub _]. assert (Eo : z0 = o_pos o0).
      { clear -Ee. unfold local_def in Ee. destruct (plain_ident g ti e); [|done]. destruct (switch_object ti i); [by injection Ee as <- <-|].
        destruct (ti_defs ti (id_ptr i)) as [x|]; [|done]. destruct (registered g p tbl (o_pos x)); [done|]. by injection Ee as <- <-. }
      destruct (local_def_pos _ _ _ _ _ _ _ _ Ee Hsub (proj1 Hdi)) as (i & Ei & Ez). rewrite Ei in Hsub.
      unfold local_info. cbn [snd l_obj]. rewrite <-Eo, Ez. by rewrite (ef_case P P' ti ti' f Hut i Hsub).
Qed.

(** C82: After an edit of the bodies of functions, the index has the same document for every file that was not edited: the
    same path, the same occurrences in the same order, and the same information about symbols, up to relationships; ... *)
Theorem C82_other_documents : ∀ digest objstr root P P' msgs msgs' p p' f ti ti',
  edited P P' → indexed_as digest objstr root P msgs → indexed_as digest objstr root P' msgs' →
  p ∈ pr_pkgs P → p' ∈ pr_pkgs P' → p_path p' = p_path p → p_info p = Some ti → p_info p' = Some ti' →
  f ∈ p_syntax p → f ∈ p_syntax p' → untouched (pr_fs P) (pr_fs P') ti ti' f →
  ∃ d d', document_of (pr_pkgs P) (documents msgs) p f d ∧ document_of (pr_pkgs P') (documents msgs') p' f d' ∧
    d_path d' = d_path d ∧ d_occs d' = d_occs d ∧ map unrelated (d_symbols d') ≡ₚ map unrelated (d_symbols d).
Proof.
  intros digest objstr root P P' msgs msgs' p p' f ti ti' Hed HP HP' Hp Hp' Ep Hti Hti' Hf Hf' Hut.
  destruct (edited_documents digest objstr root P P' msgs msgs' p p' f f ti ti') as (d & d' & D & D' & E1 & _ & E2); [done..|].
  destruct (E2 eq_refl Hut). by exists d, d'.
Qed.
Print Assumptions C82_other_documents.

(** ... and in the edited files, the same information about everything but local symbols. *)
Theorem C82_edited_document : ∀ digest objstr root P P' msgs msgs' p p' f f' ti ti',
  edited P P' → indexed_as digest objstr root P msgs → indexed_as digest objstr root P' msgs' →
  p ∈ pr_pkgs P → p' ∈ pr_pkgs P' → p_path p' = p_path p → p_info p = Some ti → p_info p' = Some ti' →
  f ∈ p_syntax p → f' ∈ p_syntax p' → outline f' = outline f →
  ∃ d d', document_of (pr_pkgs P) (documents msgs) p f d ∧ document_of (pr_pkgs P') (documents msgs') p' f' d' ∧
    d_path d' = d_path d ∧
    map unrelated (filter (λ i, ¬ is_local (i_symbol i)) (d_symbols d')) ≡ₚ map unrelated (filter (λ i, ¬ is_local (i_symbol i)) (d_symbols d)).
Proof.
  intros digest objstr root P P' msgs msgs' p p' f f' ti ti' Hed HP HP' Hp Hp' Ep Hti Hti' Hf Hf' Hout.
  destruct (edited_documents digest objstr root P P' msgs msgs' p p' f f' ti ti') as (d & d' & D & D' & E1 & E2 & _); [done..|]. by exists d, d'.
Qed.
Print Assumptions C82_edited_document.
