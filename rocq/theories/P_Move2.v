(** The index and the search for implementations commute with a move of all positions. *)
From Coq Require Import Ascii String.
From stdpp Require Import prelude strings gmap sorting.
From Verif Require Import GoStr Scip GoTypes Ast Packages Symbols Document Lookup Pass1 Pass2 Paths Loader Index Quote Fingerprint Impls SpecMove P_Move.
Open Scope string_scope.
Open Scope list_scope.

Lemma opposite_sym mv back : opposite mv back → opposite back mv.
Proof. intros (H1 & H2 & H3). split; [done|]. split; [done|]. by rewrite <-H3 at 1. Qed.
Lemma map_cancel {A B} (f : A → B) (g : B → A) (l : list B) : (∀ b, f (g b) = b) → map f (map g l) = l.
Proof. intros H. induction l as [|b l IH]; [done|]. cbn. by rewrite H, IH. Qed.
Lemma foldl_map {A A' B B'} (f : A → B → A) (f' : A' → B' → A') (ra : A → A') (rb : B → B') (l : list B) :
  (∀ a b, f' (ra a) (rb b) = ra (f a b)) → ∀ a, foldl f' (ra a) (map rb l) = ra (foldl f a l).
Proof. intros H. induction l as [|b l IH]; intros a; [done|]. cbn. by rewrite H, IH. Qed.
Lemma insert_by_map {A B} (key : A → nat) (key' : B → nat) (r : A → B) x l : (∀ a, key' (r a) = key a) →
  insert_by key' (r x) (map r l) = map r (insert_by key x l).
Proof. intros H. induction l as [|y l IH]; [done|]. cbn. rewrite !H. destruct (Nat.leb _ _); [done|]. cbn. by rewrite IH. Qed.
Lemma stable_sort_map {A B} (key : A → nat) (key' : B → nat) (r : A → B) l : (∀ a, key' (r a) = key a) →
  stable_sort key' (map r l) = map r (stable_sort key l).
Proof. intros H. unfold stable_sort. induction l as [|x l IH]; [done|]. cbn [map foldr]. rewrite IH. by apply insert_by_map. Qed.
Lemma filter_map {A B} (p : A → bool) (p' : B → bool) (r : A → B) l : (∀ a, p' (r a) = p a) → List.filter p' (map r l) = map r (List.filter p l).
Proof. intros H. induction l as [|x l IH]; [done|]. cbn. rewrite H, IH. by destruct (p x). Qed.
Lemma omap_map {A B C D} (f : A → option B) (f' : C → option D) (ra : A → C) (rb : B → D) l : (∀ a, f' (ra a) = rb <$> f a) → omap f' (map ra l) = map rb (omap f l).
Proof. intros H. induction l as [|x l IH]; [done|]. cbn. rewrite H, IH. by destruct (f x). Qed.
Lemma omap_map1 {A B D} (f : A → option B) (f' : A → option D) (rb : B → D) l : (∀ a, f' a = rb <$> f a) → omap f' l = map rb (omap f l).
Proof. intros H. induction l as [|x l IH]; [done|]. cbn. rewrite H, IH. by destruct (f x). Qed.
Lemma existsb_same {A} (p p' : A → bool) l : (∀ a, p' a = p a) → existsb p' l = existsb p l.
Proof. intros H. induction l as [|x l IH]; [done|]. cbn. by rewrite H, IH. Qed.
Lemma forallb_same {A} (p p' : A → bool) l : (∀ a, p' a = p a) → forallb p' l = forallb p l.
Proof. intros H. induction l as [|x l IH]; [done|]. cbn. by rewrite H, IH. Qed.
Lemma res_map_id {A} (r : res A) : res_map (λ a, a) r = r. Proof. by destruct r. Qed.
(** a table with other values is altered *)
Lemma alter_fmap' {A B} (f : A → A) (f' : B → B) (r : A → B) (m : gmap string A) k : (∀ a, f' (r a) = r (f a)) → alter f' k (r <$> m) = r <$> alter f k m.
Proof.
  intros H. apply map_eq. intros j. rewrite lookup_fmap. destruct (decide (j = k)) as [->|Hn].
  - rewrite !lookup_alter, lookup_fmap. destruct (m !! k); cbn; [by rewrite H|done].
  - by rewrite !lookup_alter_ne, lookup_fmap by done.
Qed.

Section Move.
Context (mv back : Z → Z) (Hop : opposite mv back).
Notation N := (mv_node mv).
Notation I := (mv_ident mv).
Notation O := (mv_obj mv).
Notation K := (mv_pkg mv back).
Notation G := (mv_global mv back).
Notation H := (mv_heap mv back).
#[local] Instance mv_inj2 : Inj (=) (=) mv := mv_inj mv back Hop.
Lemma back_cancel z : mv (back z) = z. Proof. apply Hop. Qed.

Lemma mv_heap_lookup (h : pheap) q : H h !! q = K <$> h !! q.
Proof. apply lookup_fmap. Qed.

(** *** Index *)
Section Index.
Context (digest : string → string) (env : tenv) (fs fs' : fset) (Hfs : mv_fset mv fs fs') (h : pheap).
Lemma mv_set_pkg_symbol g p : set_pkg_symbol (G g) (K p) = res_map G (set_pkg_symbol g p).
Proof.
  unfold set_pkg_symbol. change (from_descriptors (K p) _) with (from_descriptors p [Desc (p_path p) Namespace]).
  destruct (from_descriptors p [Desc (p_path p) Namespace]); [|done]. cbn. unfold mv_global. cbn. rewrite fmap_insert.
  assert (mv_entry mv back (p, ∅) = (K p, ∅)) as -> by (unfold mv_entry; cbn [fst snd]; by rewrite mv_table_empty). done.
Qed.
Lemma mv_set_pkg_symbols all ks : ∀ g, set_pkg_symbols (G g) (H h) all ks = res_map G (set_pkg_symbols g h all ks).
Proof.
  induction ks as [|k ks IH]; intros g; [done|]. cbn. destruct (all !! k) as [q|]; [|apply IH]. rewrite mv_heap_lookup.
  destruct (h !! q) as [p|]; [|done]. cbn. rewrite mv_set_pkg_symbol. destruct (set_pkg_symbol g p); [|done]. apply IH.
Qed.
Lemma mv_file_package_pos f : file_package_pos (N f) = mv (file_package_pos f).
Proof. destruct f; cbn; by rewrite ?(mv_zero _ _ Hop). Qed.
Lemma mv_file_name f : file_name fs' (N f) = file_name fs f.
Proof. unfold file_name. by rewrite mv_file_package_pos, (proj2 Hfs). Qed.
Lemma mv_file_ident f : file_ident (N f) = I (file_ident f).
Proof. destruct f; try done; unfold mv_ident; cbn; by rewrite (mv_zero _ _ Hop). Qed.
Lemma mv_add_document root docs f : add_document fs' root docs (N f) = add_document fs root docs f.
Proof. unfold add_document. by rewrite mv_file_name. Qed.
Definition mv_pass1 (st : docmap * global) : docmap * global := (st.1, G st.2).
Lemma mv_g_add g p t : g_add (G g) (K p) (mv_table mv t) = G (g_add g p t).
Proof. unfold g_add, mv_global. cbn. by rewrite fmap_insert. Qed.
Lemma mv_add_documents root docs l : res_fold (add_document fs' root) docs (map N l) = res_fold (add_document fs root) docs l.
Proof.
  rewrite <-(res_map_id (res_fold (add_document fs root) docs l)). apply (res_fold_map _ _ (λ a, a) N). intros a b _. rewrite res_map_id. apply mv_add_document.
Qed.
Lemma mv_visit_package_syntax root st p :
  visit_package_syntax digest env fs' root (mv_pass1 st) (K p) = res_map mv_pass1 (visit_package_syntax digest env fs root st p).
Proof.
  unfold visit_package_syntax. change (p_syntax (K p)) with (map N (p_syntax p)). change (p_info (K p)) with (mv_info mv back <$> p_info p).
  change (mv_pass1 st).1 with st.1. change (mv_pass1 st).2 with (G st.2).
  destruct (p_syntax p) as [|f l] eqn:Ef.
  - cbn [map res_map]. rewrite <-(mv_table_empty mv) at 1. by rewrite mv_g_add.
  - rewrite mv_add_documents. cbn [map]. destruct (p_info p) as [ti|]; [|done]. cbn [fmap option_fmap option_map].
    rewrite (mv_visit_package_table mv back Hop digest ti fs fs' Hfs). destruct (visit_package_table digest ti fs env p) as [t|]; [|done]. cbn [res_map res_bind].
    destruct (res_fold (add_document fs root) st.1 (f :: l)) as [d|]; [|done]. cbn [res_map res_bind]. by rewrite mv_g_add.
Qed.
Lemma mv_find_package_docs p : find_package_docs fs' (K p) = find_package_docs fs p.
Proof.
  unfold find_package_docs. cbn [mv_pkg p_syntax p_name]. rewrite (filter_map file_has_doc) by (by intros []).
  rewrite (stable_sort_map (λ f, file_relevance (p_name p) (pos_file (fs_position fs (file_package_pos f))))).
  - apply map_eq_map. by intros [].
  - intros f. by rewrite mv_file_package_pos, (proj1 Hfs).
Qed.
Lemma mv_package_info g p : package_info fs' (G g) (K p) = package_info fs g p.
Proof. unfold package_info. by rewrite mv_find_package_docs. Qed.
Lemma mv_package_occurrence g p f : package_occurrence fs' (G g) (K p) (N f) = package_occurrence fs g p f.
Proof. unfold package_occurrence. rewrite mv_file_ident. cbn [mv_ident id_pos id_name]. by rewrite (proj1 Hfs). Qed.
Lemma mv_set_package_occurrence g p docs f : set_package_occurrence fs' (G g) (K p) docs (N f) = set_package_occurrence fs g p docs f.
Proof.
  unfold set_package_occurrence. rewrite mv_file_name. destruct (file_name fs f); [|done]. cbn [res_bind]. destruct (docs !! _); [|done]. by rewrite mv_package_occurrence.
Qed.
Lemma mv_g_set g p z i : g_set (G g) (K p) (mv z) i = G (g_set g p z i).
Proof.
  unfold g_set. change (p_path (K p)) with (p_path p). change (g_symbols (G g)) with (mv_entry mv back <$> g_symbols g). rewrite lookup_fmap.
  destruct (g_symbols g !! p_path p) as [[q t]|]; [|done]. cbn [fmap option_fmap option_map]. unfold mv_entry at 1. cbn [fst snd].
  rewrite (mv_pset mv back Hop). unfold mv_global. cbn [g_symbols g_pkgsyms]. by rewrite fmap_insert.
Qed.
Lemma mv_visit_project_package root st p :
  visit_project_package digest env fs' root (mv_pass1 st) (K p) = res_map mv_pass1 (visit_project_package digest env fs root st p).
Proof.
  unfold visit_project_package. rewrite mv_visit_package_syntax. destruct (visit_package_syntax digest env fs root st p) as [st'|]; [|done]. cbn [res_bind res_map].
  change (p_syntax (K p)) with (map N (p_syntax p)). destruct (p_syntax p) as [|f l]; [done|].
  cbn [map]. change (N f :: map N l) with (map N (f :: l)). rewrite mv_file_name. destruct (file_name fs f) as [n|]; [|done]. cbn [res_bind].
  change (mv_pass1 st').1 with st'.1. change (mv_pass1 st').2 with (G st'.2). destruct (st'.1 !! n); [|done].
  rewrite mv_file_ident, mv_package_info. change (id_pos (I (file_ident f))) with (mv (id_pos (file_ident f))). rewrite mv_g_set. set (g' := g_set _ _ _ _).
  assert (res_fold (set_package_occurrence fs' (G g') (K p)) st'.1 (map N (f :: l)) = res_fold (set_package_occurrence fs g' p) st'.1 (f :: l)) as ->.
  { rewrite <-(res_map_id (res_fold (set_package_occurrence fs g' p) st'.1 (f :: l))). apply (res_fold_map _ _ (λ a, a) N). intros a b _. rewrite res_map_id. apply mv_set_package_occurrence. }
  by destruct (res_fold (set_package_occurrence fs g' p) st'.1 (f :: l)).
Qed.
Lemma mv_packages_of t order : packages_of (H h) t order = map K (packages_of h t order).
Proof. unfold packages_of. apply omap_map1. intros k. destruct (t !! k) as [q|]; [|done]. apply mv_heap_lookup. Qed.
Lemma mv_new_global : G new_global = new_global.
Proof. unfold mv_global, new_global. cbn. by rewrite fmap_empty. Qed.
Lemma mv_index_visit_packages root proj all porder aorder :
  index_visit_packages digest env fs' (H h) root proj all porder aorder = res_map mv_pass1 (index_visit_packages digest env fs h root proj all porder aorder).
Proof.
  unfold index_visit_packages. rewrite <-mv_new_global at 1. rewrite mv_set_pkg_symbols. destruct (set_pkg_symbols new_global h all aorder) as [g|]; [|done]. cbn [res_map res_bind].
  rewrite mv_packages_of. change (∅, G g) with (mv_pass1 (∅, g)). apply (res_fold_map _ _ mv_pass1 K). intros a b _. apply mv_visit_project_package.
Qed.
Lemma mv_imports_of p s : imports_of (H h) (K p) s = K <$> imports_of h p s.
Proof. unfold imports_of. cbn [mv_pkg p_imports]. destruct (List.find _ _); [apply mv_heap_lookup|done]. Qed.

(** iteration orders seen from the positions before the move *)
Definition back_maps (mo : map_orders) : map_orders :=
  MapOrders (λ n t, map (λ e : Z * syminfo, (back e.1, e.2)) (mo_table mo n (mv_table mv t)))
            (λ n l, map (λ e : Z * local, (back e.1, mv_local back e.2)) (mo_locals mo n (mv_locals mv l))).
Lemma mv_local_cancel l : mv_local mv (mv_local back l) = l.
Proof. destruct l as [s o]. unfold mv_local. cbn. by rewrite (mv_obj_cancel back mv (opposite_sym _ _ Hop)). Qed.
Context (objstr objstr' : obj → string) (Hos : ∀ o, objstr' (O o) = objstr o) (mo : map_orders).
Lemma mv_index_file g n k p f d : (∀ i, i ∈ node_idents f → moved_whole mv i) →
  index_file env fs' (H h) objstr' mo (G g) n k (K p) (N f) d = index_file env fs h objstr (back_maps mo) g n k p f d.
Proof.
  intros Hw. unfold index_file. change (p_info (K p)) with (mv_info mv back <$> p_info p). destruct (p_info p) as [ti|]; [|done]. cbn [fmap option_fmap option_map].
  destruct (sd_occ d) as [po|]; [|done]. rewrite mv_file_name. destruct (file_name fs f) as [name|]; [|done]. cbn [res_bind].
  rewrite mv_get_package. set (tbl := match get_package g p with Some t => t | None => ∅ end).
  assert (match mv_table mv <$> get_package g p with Some t => t | None => ∅ end = mv_table mv tbl) as ->.
  { unfold tbl. destruct (get_package g p); [done|]. cbn. by rewrite mv_table_empty. }
  rewrite (mv_visit_file mv back Hop ti fs fs' Hfs env g p tbl (imports_of h p) (imports_of (H h) (K p)) (mv_imports_of p) po k f Hw).
  destruct (visit_file _ _ _ _ _ _ _ _ _ _) as [st|]; [|done]. cbn [res_map res_bind]. f_equal. f_equal.
  rewrite <-(mv_to_document mv back Hop ti fs fs' Hfs env objstr objstr' Hos). cbn [back_maps mo_table mo_locals].
  rewrite !map_cancel; [done| |].
  - intros [z l]. cbn. by rewrite back_cancel, mv_local_cancel.
  - intros [z l]. cbn. by rewrite back_cancel.
Qed.
Context (w : writer).
Lemma mv_write_documents g docs items : (∀ p f i, (p, f) ∈ items → i ∈ node_idents f → moved_whole mv i) → ∀ sofar n k,
  write_documents env fs' (H h) objstr' mo w (G g) docs sofar n k (map (λ x : gpkg * node, (K x.1, N x.2)) items) =
  write_documents env fs h objstr (back_maps mo) w g docs sofar n k items.
Proof.
  induction items as [|[p f] items IH]; intros Hw sofar n k; [done|]. cbn [map write_documents fst snd]. rewrite mv_file_name.
  assert (Hw' : ∀ p f i, (p, f) ∈ items → i ∈ node_idents f → moved_whole mv i) by (intros; eapply Hw; [by right|done]).
  destruct (file_name fs f); [|done]. destruct (docs !! _); [|by apply IH]. rewrite mv_index_file by (intros i; eapply Hw; left).
  destruct (index_file _ _ _ _ _ _ _ _ _ _ _) as [[doc k']|]; [|done]. destruct (w sofar (MDoc doc)); [done|]. by apply IH.
Qed.
Lemma mv_items_of ps : items_of (map K ps) = map (λ x : gpkg * node, (K x.1, N x.2)) (items_of ps).
Proof.
  unfold items_of. apply map_concat_map. apply Forall_forall. intros p _. cbn [mv_pkg p_syntax]. by rewrite !map_map.
Qed.
Lemma mv_index impl impl' impl_error root version skip meta ld porder aorder porder2 :
  whole_idents mv h →
  (∀ g k, impl' (G g) k = res_map (option_map (λ r : global * caches * list syminfo, (G r.1.1, r.1.2, r.2))) (impl g k)) →
  Index.index digest env fs' (H h) objstr' mo w impl' impl_error root version skip meta ld porder aorder porder2 =
  Index.index digest env fs h objstr (back_maps mo) w impl impl_error root version skip meta ld porder aorder porder2.
Proof.
  intros Hw Hi. unfold Index.index. destruct (w [] (MMeta meta)); [done|]. destruct ld as [e|all proj]; [done|].
  rewrite mv_index_visit_packages. destruct (index_visit_packages digest env fs h root proj all porder aorder) as [[docs g]|]; [|done]. cbn [res_map mv_pass1 fst snd].
  set (k := Caches _ _).
  assert ((if skip then Ok (Some (G g, k, [])) else impl' (G g) k) =
    res_map (option_map (λ r : global * caches * list syminfo, (G r.1.1, r.1.2, r.2))) (if skip then Ok (Some (g, k, [])) else impl g k)) as ->.
  { destruct skip; [done|apply Hi]. }
  destruct (if skip then _ else _) as [[[[g' k'] exts]|]|]; [|done..]. cbn [res_map option_map fst snd].
  rewrite mv_packages_of, mv_items_of, mv_write_documents; [done|].
  intros p f i Hin Hii. unfold items_of in Hin. apply elem_of_list_In, in_concat in Hin as (l & Hl & Hin). apply in_map_iff in Hl as (p' & <- & Hp).
  apply in_map_iff in Hin as (f' & [= -> ->] & Hf). apply elem_of_list_In in Hp. unfold packages_of in Hp. apply elem_of_list_omap in Hp as (key & _ & Hp).
  destruct (proj !! key) as [q|]; [|done]. eapply (Hw q p f i); [done|by apply elem_of_list_In|done].
Qed.
End Index.
End Move.
