(** The search for implementations and the index use comments for documentation and deprecation only. *)
From Coq Require Import Ascii String.
From stdpp Require Import prelude strings gmap sorting.
From Verif Require Import GoStr Scip GoTypes Ast Packages Symbols Document Lookup Pass1 Pass2 P_Pass1 Paths Loader Index Quote Fingerprint Impls SpecIndex P_Move P_Move2 SpecComment P_Comment.
Open Scope string_scope.
Open Scope list_scope.

(** *** the search for implementations *)
Definition mutes (l l' : list syminfo) : Prop := map mute l' = map mute l.
Definition Rm (m m' : mem) : Prop := Rg (mm_g m) (mm_g m') ∧ mutes (mm_new m) (mm_new m').
Lemma mute_with f i : mute (with_rels f i) = with_rels f (mute i). Proof. done. Qed.
Lemma mutes_alter f n l l' : mutes l l' → mutes (alter (with_rels f) n l) (alter (with_rels f) n l').
Proof.
  unfold mutes. intros H. assert (∀ l, map mute (alter (with_rels f) n l) = alter (with_rels f) n (map mute l)) as E.
  { intros l0. apply (list_alter_fmap mute). by apply Forall_forall. }
  by rewrite !E, H.
Qed.
Lemma mutes_app l l' a a' : mutes l l' → mutes a a' → mutes (l ++ a) (l' ++ a').
Proof. unfold mutes. intros H Ha. by rewrite !List.map_app, H, Ha. Qed.
Lemma mutes_length l l' : mutes l l' → length l' = length l.
Proof. intros H. rewrite <-(map_length mute l'), H. apply map_length. Qed.
Lemma Rm_upd f m m' c : Rm m m' → Rm (upd_cell f m c) (upd_cell f m' c).
Proof.
  intros [Hg Hn]. destruct c as [id z|n]; [|split; [done|by apply mutes_alter]]. split; [|done]. cbn. split; [|apply Hg]. intros j. cbn [g_symbols].
  destruct (decide (j = id)) as [->|Hne]; [|rewrite !lookup_alter_ne by done; apply Hg]. rewrite !lookup_alter.
  destruct (Rg_cases _ _ id Hg) as [[-> ->]|(p & t & p' & t' & -> & -> & Hp & Ht)]; cbn; constructor. split; [done|]. cbn. intros y.
  destruct (decide (y = z)) as [->|Hny]; [|rewrite !lookup_alter_ne by done; apply Ht]. rewrite !lookup_alter. specialize (Ht z).
  destruct (t !! z) as [i|], (t' !! z) as [i'|]; cbn in *; try done. injection Ht as H1 H2 H3 H4 H5 H6. f_equal. unfold undocumented, with_rels. cbn. congruence.
Qed.

Section Impl.
Context (rc : node → node) (env : tenv) (u : unicode) (crc : string → N) (mset : ty → list obj) (cok : ty → ty → bool).
Notation K := (rc_pkg rc).
Context (level level' : gpkg → obj → bool) (Hlv : ∀ p o, level' (K p) o = level p o).
Context (scope scope' : gpkg → list obj) (Hsc : ∀ p, scope' (K p) = scope p).
Context (o : orders).
(** the orders of the iterations over the packages with other comments *)
Definition rc_orders : orders := Orders (or_packages o) (λ p, or_defs o (K p)) (or_types o) (or_ifaces o) (or_imethods o) (or_tmethods o) (or_collect o).
Notation o1 := rc_orders.
Lemma Rm_find pass types ifaces m m' n : Rm m m' →
  Rm (find_implementations env mset cok o1 pass types ifaces m n).1 (find_implementations env mset cok o pass types ifaces m' n).1 ∧
  (find_implementations env mset cok o pass types ifaces m' n).2 = (find_implementations env mset cok o1 pass types ifaces m n).2.
Proof.
  intros H. unfold find_implementations. cbn [rc_orders or_types or_ifaces or_imethods or_tmethods].
  refine (foldl_rel (λ r r' : mem * nat, Rm r.1 r'.1 ∧ r'.2 = r.2) (=) _ _ _ _ (Forall2_same _) _ (m, n) (m', n) (conj H eq_refl)).
  intros [m1 n1] [m1' n1'] [key t] ? [Hm Hn] <-. cbn [fst snd] in *. split; [|by rewrite Hn].
  apply (foldl_rel Rm (=) _ _ _ _ (Forall2_same _)); [intros ? ? [k [c s]] ? Ha <-; by apply Rm_upd|]. apply Rm_upd.
  apply (foldl_rel Rm (=) _ _ _ _ (Forall2_same _)); [|done]. intros a a' [ikey i] ? Ha <-. destruct (passes env mset cok t i); [|done].
  apply (foldl_rel Rm (=) _ _ _ _ (Forall2_same _)); [|by apply Rm_upd]. intros b b' [name [c s]] ? Hb <-. destruct (d_methods t !! name) as [[c1 s1]|]; [by apply Rm_upd|done].
Qed.
Record Rx (x x' : xstate) : Prop := { rx_if : x_ifaces x' = x_ifaces x; rx_co : x_concretes x' = x_concretes x; rx_new : mutes (x_new x) (x_new x'); rx_k : x_k x' = x_k x }.
Context (g g' : global) (Hg : Rg g g').
Lemma R_object_cell ob : object_cell g' ob = object_cell g ob.
Proof.
  unfold object_cell. destruct (o_pkg ob) as [tp|]; [|done]. induction (test_package_combinations (tp_path tp)) as [|id l IH]; [done|]. cbn.
  destruct (Rg_info g g' id (o_pos ob) Hg) as [[-> ->]|(i & i' & -> & -> & _)]; [exact IH|done].
Qed.
Definition Ra (a a' : gmap string (cell * string) * (list syminfo * caches)) : Prop := a'.1 = a.1 ∧ mutes a.2.1 a'.2.1 ∧ a'.2.2 = a.2.2.
Lemma Ra_method a a' m : Ra a a' → res_rel Ra (method_symbol env g a m) (method_symbol env g' a' m).
Proof.
  destruct a as [ms [new k]], a' as [ms' [new' k']]. intros (E1 & E2 & E3). cbn in E1, E2, E3. subst ms' k'. unfold method_symbol.
  pose proof (Rlr_object env g g' k m Hg) as H. destruct (get_symbol_of_object env g k m) as [[r k1]|], (get_symbol_of_object env g' k m) as [[r' k1']|]; try done.
  destruct H as [E H]. cbn in E, H |- *. subst k1'. destruct r as [i| |], r' as [i'| |]; try done. rewrite R_object_cell, (mute_symbol _ _ H). destruct (object_cell g m); [by split|].
  rewrite (mutes_length _ _ E2). split; [done|]. split; [|done]. cbn. apply mutes_app; [done|]. unfold mutes. cbn. by rewrite H.
Qed.
Lemma Rx_classify named sym symbol pkg x x' : Rx x x' → res_rel Rx (classify env u crc mset g named sym symbol pkg x) (classify env u crc mset g' named sym symbol pkg x').
Proof.
  intros [H1 H2 H3 H4]. unfold classify. destruct (intuitive_method_set env mset named) as [|m0 l] eqn:E; [by split|]. rewrite <-E. clear E.
  assert (H : res_rel Ra (res_fold (method_symbol env g) (∅, (x_new x, x_k x)) (intuitive_method_set env mset named)) (res_fold (method_symbol env g') (∅, (x_new x', x_k x')) (intuitive_method_set env mset named))).
  { eapply (res_fold_rel Ra (=)); [apply Forall2_same|intros ? ? ? ? _ ? <-; by apply Ra_method|]. by split. }
  destruct (res_fold (method_symbol env g) _ _) as [[ms [new k]]|], (res_fold (method_symbol env g') _ _) as [[ms' [new' k']]|]; try done.
  destruct H as (E1 & E2 & E3). cbn in E1, E2, E3. subst ms' k'. cbn [res_bind]. destruct (method_mask u crc _); [|done]. cbn.
  destruct (is_interface env named); split; cbn; congruence || done.
Qed.
Lemma Rx_def p tbl tbl' x x' ob : Rt tbl tbl' → Rx x x' → res_rel Rx (extract_def env u crc mset level g p tbl x ob) (extract_def env u crc mset level' g' (K p) tbl' x' ob).
Proof.
  intros Ht Hx. unfold extract_def. rewrite Hlv. change (p_types (K p)) with (p_types p). change (p_path (K p)) with (p_path p).
  destruct (negb (is_type_name ob)); [done|]. destruct (match p_types p with Some _ => _ | None => _ end); [done|]. destruct (o_type ob); try done.
  unfold pget. destruct (Rt_cases tbl tbl' (o_pos ob) Ht) as [[-> ->]|(i & i' & -> & -> & Hi)]; [done|]. rewrite (mute_symbol _ _ Hi). by apply Rx_classify.
Qed.
Lemma Rx_local p x x' : Rx x x' → res_rel Rx (extract_local env u crc mset level o1 g p x) (extract_local env u crc mset level' o g' (K p) x').
Proof.
  intros Hx. unfold extract_local, get_package. change (p_path (K p)) with (p_path p). destruct (Rg_cases g g' (p_path p) Hg) as [[-> ->]|(q & t & q' & t' & -> & -> & _ & Ht)]; [done|]. cbn.
  eapply (res_fold_rel Rx (=)); [apply Forall2_same|intros ? ? ? ? _ ? <-; by apply Rx_def|done].
Qed.
Lemma Rx_object p x x' ob : Rx x x' → res_rel Rx (extract_object env u crc mset g p x ob) (extract_object env u crc mset g' (K p) x' ob).
Proof.
  intros Hx. unfold extract_object. destruct (negb _); [done|]. destruct (o_type ob) eqn:Et; try done. rewrite (rx_k _ _ Hx).
  rewrite (bare_compose env _ p (K p) _ eq_refl). destruct (compose env (k_composer (x_k x)) (Some p) (Some ob)) as [sym c]. destruct Hx as [H1 H2 H3 H4].
  destruct (String.eqb sym ""); [by split|]. rewrite (mutes_length _ _ H3). apply Rx_classify. split; try done. cbn. by apply mutes_app.
Qed.
Lemma Rx_package x x' p : Rx x x' → res_rel Rx (extract_package env u crc mset level scope o1 g x p) (extract_package env u crc mset level' scope' o g' x' (K p)).
Proof.
  intros Hx. unfold extract_package. change (p_name (K p)) with (p_name p). change (p_types (K p)) with (p_types p). change (p_info (K p)) with (p_info p).
  destruct (String.eqb _ _); [done|]. destruct (p_info p); [by apply Rx_local|]. destruct (p_types p); [|done].
  unfold extract_remote. rewrite Hsc. eapply (res_fold_rel Rx (=)); [apply Forall2_same|intros ? ? ? ? _ ? <-; by apply Rx_object|done].
Qed.
Lemma rc_heap_lookup (h : pheap) q : rc_heap rc h !! q = K <$> h !! q.
Proof. apply lookup_fmap. Qed.
Lemma Rx_extract h pkgs new new' k : mutes new new' →
  res_rel Rx (extract env u crc mset level scope o1 h g pkgs new k) (extract env u crc mset level' scope' o (rc_heap rc h) g' pkgs new' k).
Proof.
  intros Hn. unfold extract. cbn [rc_orders or_packages].
  rewrite (omap_map1 (λ key, match pkgs !! key with Some q => h !! q | None => None end) (λ key, match pkgs !! key with Some q => rc_heap rc h !! q | None => None end) K).
  - eapply (res_fold_rel Rx (λ p p', p' = K p)); [apply Forall2_map_r|intros ? ? ? ? _ ? ->; by apply Rx_package|]. by split.
  - intros key. destruct (pkgs !! key); [|done]. apply rc_heap_lookup.
Qed.
Lemma R_gained m m' l : Rm m m' → mutes (gained m l) (gained m' l).
Proof.
  intros [Hm Hn]. unfold gained. induction l as [|[key d] l IH]; [done|]. cbn.
  assert (Hc : (cell_info m (d_sym d) = None ∧ cell_info m' (d_sym d) = None) ∨ ∃ i i', cell_info m (d_sym d) = Some i ∧ cell_info m' (d_sym d) = Some i' ∧ mute i' = mute i).
  { destruct (d_sym d) as [id z|n]; cbn; [exact (Rg_info _ _ id z Hm)|]. assert (E : map mute (mm_new m') !! n = map mute (mm_new m) !! n) by (by rewrite Hn).
    rewrite !(list_lookup_fmap mute) in E. destruct (mm_new m !! n) as [i|], (mm_new m' !! n) as [i'|]; try done; [right; exists i, i'; repeat split; cbn in E; congruence|by left]. }
  destruct Hc as [[-> ->]|(i & i' & -> & -> & Hi)]; [exact IH|]. rewrite (mute_rels _ _ Hi). destruct (i_relationships i); [exact IH|]. unfold mutes in *. cbn. by rewrite Hi, IH.
Qed.
Definition Rp (r r' : option (global * caches * list syminfo)) : Prop :=
  match r, r' with Some (g, k, e), Some (g', k', e') => Rg g g' ∧ k' = k ∧ mutes e e' | None, None => True | _, _ => False end.
Lemma R_phase h proj all k : res_rel Rp (impl_phase env u crc mset cok level scope o1 h proj all g k) (impl_phase env u crc mset cok level' scope' o (rc_heap rc h) proj all g' k).
Proof.
  unfold impl_phase, add_implementation_relationships. pose proof (Rx_extract h proj [] [] k eq_refl) as Hl.
  destruct (extract env u crc mset level scope o1 h g proj [] k) as [l|], (extract env u crc mset level' scope' o (rc_heap rc h) g' proj [] k) as [l'|]; try done.
  destruct Hl as [L1 L2 L3 L4]. cbn [res_bind]. rewrite L4. pose proof (Rx_extract h (remote_packages all proj) (x_new l) (x_new l') (x_k l) L3) as Hr.
  destruct (extract env u crc mset level scope o1 h g _ (x_new l) (x_k l)) as [r|], (extract env u crc mset level' scope' o (rc_heap rc h) g' _ (x_new l') (x_k l)) as [r'|]; try done.
  destruct Hr as [R1 R2 R3 R4]. cbn [res_bind]. rewrite L1, L2, R1, R2, R4.
  assert (H0 : Rm (Mem g (x_new r)) (Mem g' (x_new r'))) by done.
  destruct (Rm_find 0 (x_concretes l) (x_ifaces l) _ _ 0 H0) as [H1 N1].
  destruct (find_implementations env mset cok o1 0 _ _ _ _) as [m1 n1], (find_implementations env mset cok o 0 _ _ _ _) as [m1' n1']. cbn [fst snd] in H1, N1. subst n1'.
  destruct (Rm_find 1 (x_concretes l) (x_ifaces r) _ _ n1 H1) as [H2 N2].
  destruct (find_implementations env mset cok o1 1 _ _ _ _) as [m2 n2], (find_implementations env mset cok o 1 _ _ _ _) as [m2' n2']. cbn [fst snd] in H2, N2. subst n2'.
  destruct (Rm_find 2 (x_concretes r) (x_ifaces l) _ _ n2 H2) as [H3 N3].
  destruct (find_implementations env mset cok o1 2 _ _ _ _) as [m3 n3], (find_implementations env mset cok o 2 _ _ _ _) as [m3' n3']. cbn [fst snd] in H3, N3. subst n3'.
  cbn [res_bind res_rel Rp fst snd]. split; [apply H3|]. split; [done|]. by apply R_gained.
Qed.
End Impl.

(** *** the index *)
Section Index.
Context (rc : node → node) (Hrc : comments_only rc) (digest : string → string) (env : tenv) (fs fs' : fset) (Hfs : same_files fs fs') (h : pheap).
Context (Hgr : ∀ q p f, h !! q = Some p → f ∈ p_syntax p → groups_stay fs fs' f).
Notation K := (rc_pkg rc).
Notation h' := (rc_heap rc h).
Definition Rd (d d' : sdoc) : Prop := sd_path d' = sd_path d ∧ option_Forall2 (same_occurrence fs fs') (sd_occ d) (sd_occ d').
Definition Rdocs (m m' : docmap) : Prop := ∀ n, option_Forall2 Rd (m !! n) (m' !! n).
Definition R1 (r r' : docmap * global) : Prop := Rdocs r.1 r'.1 ∧ Rg r.2 r'.2.
Lemma Rdocs_insert m m' n d d' : Rdocs m m' → Rd d d' → Rdocs (<[n := d]> m) (<[n := d']> m').
Proof. intros H Hd x. destruct (decide (x = n)) as [->|Hn]; [rewrite !lookup_insert; by constructor|rewrite !lookup_insert_ne by done; apply H]. Qed.
Lemma rc_file_name f : file_name fs' (rc f) = file_name fs f.
Proof. unfold file_name. by rewrite (proj1 (rc_file_shape rc Hrc f)), Hfs. Qed.
Lemma Rg_set_pkg g g' p : Rg g g' → res_rel Rg (set_pkg_symbol g p) (set_pkg_symbol g' (K p)).
Proof.
  intros H. unfold set_pkg_symbol. change (from_descriptors (K p) _) with (from_descriptors p [Desc (p_path p) Namespace]). destruct (from_descriptors p _); [|done]. cbn.
  rewrite (rg_pkgs _ _ H). by apply Rg_insert.
Qed.
Lemma Rg_set_pkgs all ks : ∀ g g', Rg g g' → res_rel Rg (set_pkg_symbols g h all ks) (set_pkg_symbols g' h' all ks).
Proof.
  induction ks as [|k ks IH]; intros g g' H; [done|]. cbn [set_pkg_symbols]. destruct (all !! k) as [q|]; [|by apply IH]. rewrite rc_heap_lookup. destruct (h !! q) as [p|]; [|done].
  cbn [fmap option_fmap option_map]. pose proof (Rg_set_pkg g g' p H) as Hs. destruct (set_pkg_symbol g p), (set_pkg_symbol g' (K p)); try done. by apply IH.
Qed.
Lemma Rg_set g g' p z i i' : Rg g g' → mute i' = mute i → Rg (g_set g p z i) (g_set g' (K p) z i').
Proof.
  intros H Hi. unfold g_set. change (p_path (K p)) with (p_path p). destruct (Rg_cases g g' (p_path p) H) as [[-> ->]|(q & t & q' & t' & -> & -> & Hq & Ht)]; [done|].
  rewrite (rg_pkgs _ _ H). apply Rg_insert; [done|]. split; [done|]. cbn. by apply Rt_pset.
Qed.
Lemma R1_syntax root st st' q p : h !! q = Some p → R1 st st' → res_rel R1 (visit_package_syntax digest env fs root st p) (visit_package_syntax digest env fs' root st' (K p)).
Proof.
  intros Hq [Hd Hg]. unfold visit_package_syntax. change (p_syntax (K p)) with (map rc (p_syntax p)). change (p_info (K p)) with (p_info p).
  assert (Ha : ∀ t t', Rt t t' → Rg (g_add st.2 p t) (g_add st'.2 (K p) t')).
  { intros t t' Ht. unfold g_add. rewrite (rg_pkgs _ _ Hg). change (p_path (K p)) with (p_path p). by apply Rg_insert. }
  assert (Hdocs : res_rel Rdocs (res_fold (add_document fs root) st.1 (p_syntax p)) (res_fold (add_document fs' root) st'.1 (map rc (p_syntax p)))).
  { eapply (res_fold_rel Rdocs (λ f f', f' = rc f)); [apply Forall2_map_r| |done]. intros a a' f ? _ Ha' ->. unfold add_document. rewrite rc_file_name. destruct (file_name fs f); [|done].
    cbn. apply Rdocs_insert; [done|]. split; [done|constructor]. }
  destruct (p_syntax p) as [|f l] eqn:Ef; [cbn [map]; split; [done|apply Ha; done]|]. rewrite <-Ef in *. destruct (map rc (p_syntax p)) as [|f' l'] eqn:Er; [by rewrite Ef in Er|]. rewrite <-Er in *. clear Er.
  destruct (p_info p) as [ti|]; [|done]. assert (Hg' : ∀ f, f ∈ p_syntax p → groups_stay fs fs' f) by eauto.
  pose proof (Rt_table rc digest env ti fs fs' p Hrc Hg') as Ht. destruct (visit_package_table digest ti fs env p) as [t|], (visit_package_table digest ti fs' env (K p)) as [t'|]; try done.
  cbn [res_bind]. destruct (res_fold (add_document fs root) st.1 _), (res_fold (add_document fs' root) st'.1 _); try done. cbn. split; [done|by apply Ha].
Qed.
Lemma R1_package root st st' q p : h !! q = Some p → R1 st st' → res_rel R1 (visit_project_package digest env fs root st p) (visit_project_package digest env fs' root st' (K p)).
Proof.
  intros Hq H. unfold visit_project_package. pose proof (R1_syntax root st st' q p Hq H) as Hs.
  destruct (visit_package_syntax digest env fs root st p) as [[ds g]|], (visit_package_syntax digest env fs' root st' (K p)) as [[ds' g']|]; try done. cbn [res_bind fst snd].
  destruct Hs as [Hd Hg]. cbn in Hd, Hg. change (p_syntax (K p)) with (map rc (p_syntax p)). destruct (p_syntax p) as [|f l]; [done|]. cbn [map]. change (rc f :: map rc l) with (map rc (f :: l)).
  rewrite rc_file_name. destruct (file_name fs f) as [n|]; [|done]. cbn [res_bind]. pose proof (Hd n) as Hn. destruct (ds !! n) as [d|], (ds' !! n) as [d'|]; try by inversion Hn.
  rewrite (proj2 (rc_file_shape rc Hrc f)).
  assert (Hg2 : Rg (g_set g p (id_pos (file_ident f)) (package_info fs g p)) (g_set g' (K p) (id_pos (file_ident f)) (package_info fs' g' (K p)))).
  { apply Rg_set; [done|]. unfold package_info, undocumented, get_pkg_symbol, get_pkg_symbol_by_id. cbn. by rewrite (rg_pkgs _ _ Hg). }
  set (g2 := g_set g p _ _) in *. set (g2' := g_set g' (K p) _ _) in *.
  assert (Ho : res_rel Rdocs (res_fold (set_package_occurrence fs g2 p) ds (f :: l)) (res_fold (set_package_occurrence fs' g2' (K p)) ds' (map rc (f :: l)))).
  { eapply (res_fold_rel Rdocs (λ f f', f' = rc f)); [apply Forall2_map_r| |done]. intros a a' x ? _ Ha ->. unfold set_package_occurrence. rewrite rc_file_name. destruct (file_name fs x) as [m|]; [|done].
    cbn [res_bind]. pose proof (Ha m) as Hm. destruct (a !! m) as [e|], (a' !! m) as [e'|]; try by inversion Hm. assert (Re' : Rd e e') by (by inversion Hm). cbn.
    apply Rdocs_insert; [done|]. split; [apply Re'|]. constructor. unfold package_occurrence, get_pkg_symbol, get_pkg_symbol_by_id. rewrite (proj2 (rc_file_shape rc Hrc x)).
    split; [cbn; by rewrite (rg_pkgs _ _ Hg2)|]. split; [done|]. split; constructor. }
  destruct (res_fold (set_package_occurrence fs g2 p) ds _), (res_fold (set_package_occurrence fs' g2' (K p)) ds' _); try done.
Qed.
Lemma rc_packages_of t order : packages_of h' t order = map K (packages_of h t order).
Proof. unfold packages_of. apply omap_map1. intros k. destruct (t !! k) as [q|]; [|done]. apply rc_heap_lookup. Qed.
Lemma packages_of_heap t order p : p ∈ packages_of h t order → ∃ q, h !! q = Some p.
Proof. unfold packages_of. rewrite elem_of_list_omap. intros (k & _ & E). destruct (t !! k) as [q|]; [by exists q|done]. Qed.
Lemma R1_visit root proj all porder aorder :
  res_rel R1 (index_visit_packages digest env fs h root proj all porder aorder) (index_visit_packages digest env fs' h' root proj all porder aorder).
Proof.
  unfold index_visit_packages. pose proof (Rg_set_pkgs all aorder new_global new_global) as Hs.
  assert (Rg new_global new_global) as H0 by (split; [intros id; cbn; rewrite lookup_empty; constructor|done]). specialize (Hs H0).
  destruct (set_pkg_symbols new_global h all aorder) as [g|], (set_pkg_symbols new_global h' all aorder) as [g'|]; try done. cbn [res_bind]. rewrite rc_packages_of.
  eapply (res_fold_rel R1 (λ p p', p' = K p)); [apply Forall2_map_r| |].
  - intros a a' p ? Hin Ha ->. destruct (packages_of_heap _ _ _ Hin) as [q Hq]. by eapply R1_package.
  - split; [|done]. intros n. cbn. rewrite lookup_empty. constructor.
Qed.
Lemma rc_imports_of p s : imports_of h' (K p) s = K <$> imports_of h p s.
Proof. unfold imports_of. cbn [rc_pkg p_imports]. destruct (List.find _ _); [apply rc_heap_lookup|done]. Qed.
Context (objstr : obj → string) (mo mo' : map_orders) (Hmo : SpecIndex.orders_ok mo) (Hmo' : SpecIndex.orders_ok mo').
Lemma R_index_file g g' n k p f d d' : Rg g g' → Rd d d' →
  res_rel (λ r r', recommented_document fs fs' r.1 r'.1 ∧ r'.2 = r.2) (index_file env fs h objstr mo g n k p f d) (index_file env fs' h' objstr mo' g' n k (K p) (rc f) d').
Proof.
  intros Hg [Hp Ho]. unfold index_file. change (p_info (K p)) with (p_info p). destruct (p_info p) as [ti|]; [|done]. destruct Ho as [po po' Hpo|]; [|done].
  rewrite rc_file_name. destruct (file_name fs f) as [name|]; [|done]. cbn [res_bind]. unfold get_package. change (p_path (K p)) with (p_path p).
  assert (Ht : Rt (match snd <$> g_symbols g !! p_path p with Some t => t | None => ∅ end) (match snd <$> g_symbols g' !! p_path p with Some t => t | None => ∅ end)).
  { destruct (Rg_cases g g' (p_path p) Hg) as [[-> ->]|(q & t & q' & t' & -> & -> & _ & Ht)]; done. }
  set (tbl := match snd <$> g_symbols g !! p_path p with Some t => t | None => ∅ end) in *. set (tbl' := match snd <$> g_symbols g' !! p_path p with Some t => t | None => ∅ end) in *.
  pose proof (Rs_file rc Hrc fs fs' env ti g g' Hg p tbl tbl' Ht (imports_of h p) (imports_of h' (K p)) (rc_imports_of p) po po' k f Hpo) as Hs.
  destruct (visit_file env g fs p ti tbl (imports_of h p) po k f) as [st|], (visit_file env g' fs' (K p) ti tbl' (imports_of h' (K p)) po' k (rc f)) as [st'|]; try done.
  cbn. split; [|apply Hs]. rewrite Hp. destruct Hmo as [M1 M2], Hmo' as [M1' M2']. by apply (document_rel fs fs' Hfs env ti tbl tbl' Ht).
Qed.
Lemma R_write w' g g' docs docs' items : Rg g g' → Rdocs docs docs' → ∀ sofar sofar' n k msgs' k',
  write_documents env fs' h' objstr mo' w' g' docs' sofar' n k (map (λ x : gpkg * node, (K x.1, rc x.2)) items) = (msgs', Returned None, k') →
  ∃ ds ds', msgs' = sofar' ++ map MDoc ds' ∧ Forall2 (recommented_document fs fs') ds ds' ∧
    write_documents env fs h objstr mo (λ _ _, None) g docs sofar n k items = (sofar ++ map MDoc ds, Returned None, k').
Proof.
  intros Hg Hd. induction items as [|[p f] items IH]; intros sofar sofar' n k msgs' k'; cbn [map write_documents fst snd].
  { intros [= <- <-]. exists [], []. cbn. rewrite !List.app_nil_r. by repeat constructor. }
  rewrite rc_file_name. destruct (file_name fs f) as [name|]; [|done]. pose proof (Hd name) as Hn. destruct (docs !! name) as [d|], (docs' !! name) as [d'|]; [|by inversion Hn|by inversion Hn|by apply IH].
  assert (HRd : Rd d d') by (by inversion Hn). pose proof (R_index_file g g' n k p f d d' Hg HRd) as Hi.
  destruct (index_file env fs h objstr mo g n k p f d) as [[doc k1]|], (index_file env fs' h' objstr mo' g' n k (K p) (rc f) d') as [[doc' k1']|]; try done.
  destruct Hi as [Hi E]. cbn in Hi, E. subst k1'. destruct (w' sofar' (MDoc doc')); [done|]. intros H.
  destruct (IH (sofar ++ [MDoc doc]) _ _ _ _ _ H) as (ds & ds' & -> & Hds & ->). exists (doc :: ds), (doc' :: ds'). cbn [map]. rewrite <-!List.app_assoc. split; [done|]. split; [by constructor|done].
Qed.
Lemma write_all_done w l : ∀ sofar msgs, write_all w sofar l = (msgs, None) → msgs = sofar ++ l.
Proof.
  induction l as [|m l IH]; intros sofar msgs; cbn; [intros [= <-]; by rewrite List.app_nil_r|]. destruct (w sofar m); [done|]. intros H. rewrite (IH _ _ H), <-List.app_assoc. done.
Qed.
Lemma write_all_free l : ∀ sofar, write_all (λ _ _, None) sofar l = (sofar ++ l, None).
Proof. induction l as [|m l IH]; intros sofar; cbn; [by rewrite List.app_nil_r|]. rewrite IH, <-List.app_assoc. done. Qed.
Lemma rc_items_of ps : items_of (map K ps) = map (λ x : gpkg * node, (K x.1, rc x.2)) (items_of ps).
Proof. unfold items_of. apply map_concat_map. apply Forall_forall. intros p _. cbn [rc_pkg p_syntax]. by rewrite !map_map. Qed.
Lemma R_index impl impl' impl_error root version skip meta all proj porder aorder porder2 w' msgs' :
  (∀ g g' k, Rg g g' → res_rel Rp (impl g k) (impl' g' k)) →
  Index.index digest env fs' h' objstr mo' w' impl' impl_error root version skip meta (LoadOk all proj) porder aorder porder2 = (msgs', Returned None) →
  ∃ msgs, Index.index digest env fs h objstr mo (λ _ _, None) impl impl_error root version skip meta (LoadOk all proj) porder aorder porder2 = (msgs, Returned None) ∧
    recommented_index fs fs' msgs msgs'.
Proof.
  intros Hi. unfold Index.index. destruct (w' [] (MMeta meta)); [done|]. pose proof (R1_visit root proj all porder aorder) as H1.
  destruct (index_visit_packages digest env fs h root proj all porder aorder) as [[docs g]|], (index_visit_packages digest env fs' h' root proj all porder aorder) as [[docs' g']|]; try done.
  destruct H1 as [Hd Hg]. cbn in Hd, Hg. set (k := Caches _ _).
  assert (Hp : res_rel Rp (if skip then Ok (Some (g, k, [])) else impl g k) (if skip then Ok (Some (g', k, [])) else impl' g' k)) by (destruct skip; [done|by apply Hi]).
  destruct (if skip then Ok (Some (g, k, [])) else impl g k) as [[[[g1 k1] exts]|]|], (if skip then Ok (Some (g', k, [])) else impl' g' k) as [[[[g1' k1'] exts']|]|]; try done.
  destruct Hp as (Hg1 & -> & He). rewrite rc_packages_of, rc_items_of.
  destruct (write_documents env fs' h' objstr mo' w' g1' docs' [MMeta meta] 0 k1 _) as [[m1' o1'] k2'] eqn:Ew. destruct o1' as [[e|]|]; try done.
  destruct (R_write w' g1 g1' docs docs' _ Hg1 Hd [MMeta meta] _ _ _ _ _ Ew) as (ds & ds' & -> & Hds & ->). rewrite write_all_free.
  destruct (write_all w' _ (map MExt exts')) as [m2 e2] eqn:Ea. intros [= -> ->]. apply write_all_done in Ea as ->. eexists. split; [done|].
  exists meta, ds, ds', exts, exts'. cbn. do 3 (split; [done|]). unfold mutes in He. by rewrite He.
Qed.
End Index.
