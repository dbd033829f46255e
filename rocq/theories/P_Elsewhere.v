(** The two passes, the search for implementations and the index use the place of the project for the relative paths of
    documents only. *)
From Coq Require Import Ascii String.
From stdpp Require Import prelude strings gmap sorting.
From Verif Require Import GoStr Scip GoTypes Ast Packages Symbols Document Lookup Pass1 Pass2 P_Pass1 Paths Loader Index Quote Fingerprint Impls
  SpecIndex SpecMove P_Move P_Move2 SpecComment P_Comment PropEdit SpecElsewhere.
Open Scope string_scope.
Open Scope list_scope.

Lemma res_fold_ext {A B} (f f' : A → B → res A) l : (∀ a b, f' a b = f a b) → ∀ a, res_fold f' a l = res_fold f a l.
Proof. intros H. induction l as [|x l IH]; intros a; [done|]. cbn. rewrite H. destruct (f a x); [apply IH|done]. Qed.
Lemma res_fold_same {A A' B} (f : A → B → res A) (f' : A' → B → res A') (r : A → A') l :
  (∀ a b, b ∈ l → f' (r a) b = res_map r (f a b)) → ∀ a, res_fold f' (r a) l = res_map r (res_fold f a l).
Proof.
  induction l as [|x l IH]; intros H a; [done|]. cbn. rewrite H by left. destruct (f a x); [|done]. cbn. apply IH. intros. apply H. by right.
Qed.
Lemma filter_in {A} (P : A → bool) (l : list A) x : x ∈ List.filter P l → x ∈ l.
Proof. rewrite !elem_of_list_In, filter_In. tauto. Qed.
Lemma insert_by_in {A} (key : A → nat) x (l : list A) y : y ∈ insert_by key x l → y = x ∨ y ∈ l.
Proof.
  induction l as [|z l IH]; cbn; [rewrite elem_of_list_singleton; tauto|]. destruct (Nat.leb _ _); rewrite !elem_of_cons; tauto.
Qed.
Lemma stable_sort_in {A} (key : A → nat) (l : list A) x : x ∈ stable_sort key l → x ∈ l.
Proof. unfold stable_sort. induction l as [|y l IH]; [done|]. cbn. intros [->|H]%insert_by_in; [left|right; auto]. Qed.
Lemma insert_by_ext {A} (key key' : A → nat) x (m : list A) : key' x = key x → (∀ y, y ∈ m → key' y = key y) → insert_by key' x m = insert_by key x m.
Proof.
  intros Hx. induction m as [|y m IH]; intros Hin; [done|]. cbn. rewrite Hx, (Hin y) by left. destruct (Nat.leb _ _); [done|]. rewrite IH; [done|]. intros z Hz. apply Hin. by right.
Qed.
Lemma stable_sort_ext {A} (key key' : A → nat) (l : list A) : (∀ x, x ∈ l → key' x = key x) → stable_sort key' l = stable_sort key l.
Proof.
  induction l as [|x l IH]; intros H; [done|]. change (insert_by key' x (stable_sort key' l) = insert_by key x (stable_sort key l)). rewrite IH by (intros; apply H; by right).
  apply insert_by_ext; [apply H; left|]. intros y Hy%stable_sort_in. apply H. by right.
Qed.
Section El.
Context (el : string → string) (root' : string).
Notation K := (el_pkg el).
Definition el_global (g : global) : global := Global ((λ e : gpkg * ptable, (K e.1, e.2)) <$> g_symbols g) (g_pkgsyms g).
Notation G := el_global.
(** caches whose composer was made for another root *)
Definition el_caches (k : caches) : caches := Caches (k_skipped k) (Composer root' (c_default_version (k_composer k)) (c_memo (k_composer k))).
Notation C := el_caches.
Definition has_modules (g : global) : Prop := ∀ id e, g_symbols g !! id = Some e → is_Some (p_module e.1).

Lemma el_descriptors p ds : from_descriptors (K p) ds = from_descriptors p ds.
Proof. unfold from_descriptors. cbn. destruct (p_module p) as [[]|]; done. Qed.
Lemma el_compose env k p o : is_Some (p_module p) →
  compose env (k_composer (C k)) (Some (K p)) (Some o) = (λ r : string * composer, (r.1, Composer root' (c_default_version r.2) (c_memo r.2))) (compose env (k_composer k) (Some p) (Some o)).
Proof.
  intros [m Hm]. unfold compose. destruct (o_pkg o); [|done]. cbn [el_caches k_composer c_memo c_default_version c_default_path]. destruct (assoc_nat _ _); [done|].
  destruct (o_pkg (origin o)); [|done]. destruct (describe env _ _); [done|]. unfold pack. cbn. rewrite Hm. by destruct m.
Qed.
Lemma el_info g id z : get_info_by_path (G g) id z = get_info_by_path g id z.
Proof. unfold get_info_by_path. cbn. rewrite lookup_fmap. by destruct (g_symbols g !! id) as [[]|]. Qed.
Lemma el_get_package g p : get_package (G g) (K p) = get_package g p.
Proof. unfold get_package. cbn. rewrite lookup_fmap. by destruct (g_symbols g !! _) as [[]|]. Qed.
Lemma el_object env g k o : has_modules g →
  get_symbol_of_object env (G g) (C k) o = res_map (λ r, (r.1, C r.2)) (get_symbol_of_object env g k o).
Proof.
  intros Hg. unfold get_symbol_of_object. change (k_skipped (C k)) with (k_skipped k). destruct (decide _); [done|].
  assert (HL : ∀ tp, (let '(r, c') := lookup_in_package env (G g) (k_composer (C k)) tp o in Ok (r, Caches (k_skipped k) c')) =
    res_map (λ r, (r.1, C r.2)) (let '(r, c') := lookup_in_package env g (k_composer k) tp o in Ok (r, Caches (k_skipped k) c'))).
  { intros tp. unfold lookup_in_package. destruct (String.eqb _ _); [done|]. rewrite (mv_first_some (λ id, get_info_by_path g id (o_pos o))) by (intros; apply el_info).
    destruct (first_some _ _); [done|]. cbn [el_global g_symbols]. rewrite lookup_fmap. destruct (g_symbols g !! tp_path tp) as [[p t]|] eqn:E; [|done].
    cbn [fmap option_fmap option_map fst snd]. rewrite (el_compose env k p o) by exact (Hg _ _ E). destruct (compose env (k_composer k) (Some p) (Some o)) as [sym c].
    cbn [fst snd]. by destruct (String.eqb sym ""). }
  destruct (o_kind o), (o_pkg o) as [tp|]; try done; try apply HL; by destruct (is_error_Error o).
Qed.

(** *** tables *)
Context (fs fs' : fset) (Hfs : el_fset el fs fs').
Lemma el_settled ti n : Forall (settled ti ti fs fs') (subnodes n).
Proof.
  apply Forall_forall. intros m _. destruct m as [| | | | | | | | | | | | | | | | | | | |d c ns t vs| | | |]; try done. destruct ns as [|i [|j ns]]; try done. cbn. split; apply Hfs.
Qed.
Lemma el_decl digest ti path d : decl_events digest ti fs' path d = decl_events digest ti fs path d.
Proof.
  destruct d as [| | | | | | | | | | | | | | | | | | | | |p k doc l|doc p e r nm t b| |]; try done.
  cbn [decl_events]. destruct k; try done; by rewrite (ed_vv digest ti ti fs fs' _ (el_settled ti _)).
Qed.
Lemma el_table digest ti env p : visit_package_table digest ti fs' env (K p) = visit_package_table digest ti fs env p.
Proof.
  unfold visit_package_table, package_events. change (p_path (K p)) with (p_path p). change (p_syntax (K p)) with (p_syntax p).
  replace (List.concat (map (file_events digest ti fs' (p_path p)) (p_syntax p))) with (List.concat (map (file_events digest ti fs (p_path p)) (p_syntax p))).
  - apply res_fold_ext. intros t e. unfold apply_event. by rewrite el_descriptors.
  - f_equal. apply map_ext. intros f. unfold file_events. f_equal. destruct f; try done. f_equal. apply map_ext. intros d. by rewrite el_decl.
Qed.

(** *** the second pass *)
Lemma el_range a b o : scip_range (fs_position fs' a) (fs_position fs' b) o = scip_range (fs_position fs a) (fs_position fs b) o.
Proof. unfold scip_range. by rewrite !(ef_line _ _ _ Hfs), !(ef_col _ _ _ Hfs). Qed.
Lemma el_name_range a nm adj : range_from_name (fs_position fs' a) nm adj = range_from_name (fs_position fs a) nm adj.
Proof. unfold range_from_name. by rewrite !(ef_line _ _ _ Hfs), !(ef_col _ _ _ Hfs). Qed.
Definition el_fstate (st : fstate) : fstate := FState (f_locals st) (f_occs st) (f_func st) (C (f_caches st)).
Notation F := el_fstate.
Section Second.
Context (env : tenv) (ti : tinfo) (g : global) (Hg : has_modules g) (p : gpkg) (tbl : ptable) (imports imports' : string → option gpkg) (Him : ∀ s, imports' s = K <$> imports s).
Lemma el_import r nm z : import_occurrences (G g) fs' ti imports' r nm z = import_occurrences g fs ti imports r nm z.
Proof.
  unfold import_occurrences. destruct (ti_pkgname_of ti r) as [[oi on ok op okd oty og]|]; [|done]. destruct okd; try done. rewrite Him. destruct (imports imported_path) as [im|]; [|done].
  cbn [fmap option_fmap option_map]. unfold get_pkg_symbol, get_pkg_symbol_by_id. cbn [el_global g_pkgsyms el_pkg p_path]. destruct (g_pkgsyms g !! p_path im); [|done].
  rewrite el_name_range. destruct nm as [i|]; [|done]. by rewrite el_name_range.
Qed.
Lemma el_create st z o : create_local (F st) z o = res_map (λ r, (r.1, F r.2)) (create_local st z o).
Proof. unfold create_local. cbn [el_fstate f_locals f_occs f_func f_caches]. by destruct (f_locals st !! z). Qed.
Lemma el_deprecated z : is_deprecated (G g) (K p) tbl z = is_deprecated g p tbl z.
Proof. unfold is_deprecated. destruct (pget tbl z); [done|]. by rewrite el_info. Qed.
Lemma el_enclosing st i : enclosing_range fs' ti (F st) i = enclosing_range fs ti st i.
Proof. unfold enclosing_range. cbn [el_fstate f_func]. destruct (f_func st) as [[[nm a] e]|]; [|done]. by rewrite el_range. Qed.
Lemma el_ident_range i o : ident_range fs' i o = ident_range fs i o.
Proof. apply el_range. Qed.
Lemma el_def st i : visit_def (G g) fs' (K p) ti tbl (F st) i = res_map F (visit_def g fs p ti tbl st i).
Proof.
  unfold visit_def. destruct (ti_defs ti (id_ptr i)) as [o|]; [|done]. rewrite el_ident_range, el_deprecated. destruct (pget_symbol tbl (o_pos o)).
  { cbn. by rewrite el_enclosing. }
  unfold get_symbol. change (p_path (K p)) with (p_path p). rewrite el_info. destruct (get_info_by_path g (p_path p) (o_pos o)); cbn [fmap option_fmap option_map].
  { cbn. by rewrite el_enclosing. }
  rewrite el_create. destruct (create_local st (o_pos o) o) as [[s st']|]; [|done]. cbn. by rewrite el_enclosing.
Qed.
Lemma el_ref st i : visit_ref env (G g) fs' ti (F st) i = res_map F (visit_ref env g fs ti st i).
Proof.
  unfold visit_ref. destruct (ti_uses ti (id_ptr i)) as [o|]; [|done]. change (f_locals (F st)) with (f_locals st). rewrite el_ident_range. destruct (f_locals st !! o_pos o); [done|].
  change (f_caches (F st)) with (C (f_caches st)). rewrite el_object by done. destruct (get_symbol_of_object env g (f_caches st) o) as [[r k]|]; [|done]. cbn [res_map res_bind fst snd].
  by destruct r.
Qed.
Lemma el_step st v : Pass2.step env (G g) fs' (K p) ti tbl imports' (F st) v = res_map F (Pass2.step env g fs p ti tbl imports st v).
Proof.
  destruct v as [r nm z|x o s|nm a e|i]; cbn [Pass2.step]; [by rewrite el_import|by rewrite el_ident_range|done|].
  destruct (String.eqb _ _); [done|]. destruct (case_at ti (id_pos i)) as [o|].
  - rewrite el_create, el_ident_range. by destruct (create_local st (o_pos o) o) as [[]|].
  - rewrite el_def. destruct (visit_def g fs p ti tbl st i); [|done]. cbn [res_map res_bind]. apply el_ref.
Qed.
Lemma el_visit_file po k f : visit_file env (G g) fs' (K p) ti tbl imports' po (C k) f = res_map F (visit_file env g fs p ti tbl imports po k f).
Proof.
  unfold visit_file. assert (visits (G g) ti f = visits g ti f) as -> by exact (rc_visits (λ n, n) (λ n, eq_refl) ti g (G g) f eq_refl).
  change (FState ∅ [po] None (C k)) with (F (FState ∅ [po] None k)). apply res_fold_same. intros. apply el_step.
Qed.
End Second.
Context (el_inj : ∀ a b, el a = el b → a = b).
Lemma el_symbols_for_file file l : symbols_for_file fs' (el file) l = symbols_for_file fs file l.
Proof.
  unfold symbols_for_file. apply list_filter_iff. intros e. rewrite (ef_file _ _ _ Hfs). destruct (fs_file fs e.1) as [n|]; cbn; [|done]. split; [by intros [= ->%el_inj]|by intros [= ->]].
Qed.
Lemma el_to_document env ti objstr rel file to lo st : to_document env fs' ti objstr rel (el file) to lo (F st) = to_document env fs ti objstr rel file to lo st.
Proof. unfold to_document. by rewrite el_symbols_for_file. Qed.

(** *** the search for implementations *)
Definition el_mem (m : mem) : mem := Mem (G (mm_g m)) (mm_new m).
Notation M := el_mem.
Lemma el_upd f m c : upd_cell f (M m) c = M (upd_cell f m c).
Proof.
  destruct c as [id z|n]; [|done]. unfold upd_cell, el_mem, el_global. cbn. f_equal. f_equal. apply (alter_fmap' _ _ (λ e : gpkg * ptable, (K e.1, e.2))). by intros [p t].
Qed.
Lemma modules_upd f m c : has_modules (mm_g m) → has_modules (mm_g (upd_cell f m c)).
Proof.
  intros H. destruct c as [id z|n]; [|done]. intros j e. cbn. destruct (decide (j = id)) as [->|Hn]; [rewrite lookup_alter|rewrite lookup_alter_ne by done; apply H].
  destruct (g_symbols (mm_g m) !! id) as [[q t]|] eqn:E; [|done]. intros [= <-]. exact (H _ _ E).
Qed.
Lemma el_cell_info m c : cell_info (M m) c = cell_info m c.
Proof. destruct c; [|done]. cbn -[get_info_by_path]. apply el_info. Qed.
Section Impl.
Context (env : tenv) (u : unicode) (crc : string → N) (mset : ty → list obj) (cok : ty → ty → bool).
Context (level level' : gpkg → obj → bool) (Hlv : ∀ p o, level' (K p) o = level p o).
Context (scope scope' : gpkg → list obj) (Hsc : ∀ p, scope' (K p) = scope p).
Context (o : orders).
Definition el_orders : orders := Orders (or_packages o) (λ p, or_defs o (K p)) (or_types o) (or_ifaces o) (or_imethods o) (or_tmethods o) (or_collect o).
Notation o1 := el_orders.
Lemma foldl_same {A B} (f f' : A → B → A) (r : A → A) (l : list B) : (∀ a b, f' (r a) b = r (f a b)) → ∀ a, foldl f' (r a) l = r (foldl f a l).
Proof. intros H. induction l as [|b l IH]; intros a; [done|]. cbn. by rewrite H, IH. Qed.
Lemma el_find pass types ifaces m n :
  find_implementations env mset cok o pass types ifaces (M m) n = (λ r : mem * nat, (M r.1, r.2)) (find_implementations env mset cok o1 pass types ifaces m n).
Proof.
  unfold find_implementations. cbn [el_orders or_types or_ifaces or_imethods or_tmethods].
  apply (foldl_same _ _ (λ r : mem * nat, (M r.1, r.2)) (or_types o pass types)) with (a := (m, n)).
  intros [m0 n0] [key t]. cbn [fst snd]. f_equal.
  rewrite (foldl_same (λ m1 ki, let '(ikey, i) := (ki : string * impldef) in
            if passes env mset cok t i then
              foldl (λ m nc, let '(name, (_, s)) := (nc : string * (cell * string)) in
                  match d_methods t !! name with Some (c, _) => add_rel s m c | None => m end)
                (add_rel (d_symbol i) m1 (d_sym t)) (or_imethods o pass key ikey (d_methods i))
            else m1) _ M).
  - unfold canon at 2. rewrite el_upd. apply foldl_same. intros m1 [k [c s]]. apply el_upd.
  - intros m1 [ikey i]. destruct (passes env mset cok t i); [|done]. unfold add_rel at 2. rewrite el_upd. apply foldl_same.
    intros m2 [k [c s]]. destruct (d_methods t !! k) as [[c1 s1]|]; [apply el_upd|done].
Qed.
Definition el_x (x : xstate) : xstate := XState (x_ifaces x) (x_concretes x) (x_new x) (C (x_k x)).
Notation X := el_x.
Context (g : global) (Hg : has_modules g).
Lemma el_object_cell ob : object_cell (G g) ob = object_cell g ob.
Proof.
  unfold object_cell. destruct (o_pkg ob) as [tp|]; [|done]. induction (test_package_combinations (tp_path tp)) as [|id l IH]; [done|]. cbn. rewrite el_info. by rewrite IH.
Qed.
Definition el_acc (a : gmap string (cell * string) * (list syminfo * caches)) : gmap string (cell * string) * (list syminfo * caches) := (a.1, (a.2.1, C a.2.2)).
Lemma el_method a m : method_symbol env (G g) (el_acc a) m = res_map el_acc (method_symbol env g a m).
Proof.
  destruct a as [ms [new k]]. unfold method_symbol, el_acc. cbn [fst snd]. rewrite el_object by done. destruct (get_symbol_of_object env g k m) as [[r k1]|]; [|done].
  cbn [res_map res_bind fst snd]. destruct r; try done. rewrite el_object_cell. by destruct (object_cell g m).
Qed.
Lemma el_classify named sym symbol pkg x : classify env u crc mset (G g) named sym symbol pkg (X x) = res_map X (classify env u crc mset g named sym symbol pkg x).
Proof.
  unfold classify. destruct (intuitive_method_set env mset named) as [|m0 l] eqn:E; [done|]. rewrite <-E. clear E.
  change (x_new (X x)) with (x_new x). change (x_k (X x)) with (C (x_k x)).
  change ((∅ : gmap string (cell * string)), (x_new x, C (x_k x))) with (el_acc (∅, (x_new x, x_k x))). set (ml := intuitive_method_set env mset named).
  assert (res_fold (method_symbol env (G g)) (el_acc (∅, (x_new x, x_k x))) ml = res_map el_acc (res_fold (method_symbol env g) (∅, (x_new x, x_k x)) ml)) as ->.
  { apply res_fold_same. intros. apply el_method. }
  destruct (res_fold (method_symbol env g) _ _) as [[ms [new k]]|]; [|done]. cbn [res_map res_bind el_acc fst snd]. destruct (method_mask u crc _); [|done]. cbn.
  by destruct (is_interface env named).
Qed.
Lemma el_extract_def p tbl x ob : extract_def env u crc mset level' (G g) (K p) tbl (X x) ob = res_map X (extract_def env u crc mset level g p tbl x ob).
Proof.
  unfold extract_def. rewrite Hlv. change (p_types (K p)) with (p_types p). change (p_path (K p)) with (p_path p).
  destruct (negb (is_type_name ob)); [done|]. destruct (match p_types p with Some _ => _ | None => _ end); [done|]. destruct (o_type ob); try done.
  destruct (pget tbl (o_pos ob)); [|done]. apply el_classify.
Qed.
Lemma el_extract_object p x ob : is_Some (p_module p) → extract_object env u crc mset (G g) (K p) (X x) ob = res_map X (extract_object env u crc mset g p x ob).
Proof.
  intros Hp. unfold extract_object. destruct (negb _); [done|]. destruct (o_type ob) eqn:Et; try done. change (x_k (X x)) with (C (x_k x)). rewrite (el_compose env _ p ob Hp).
  destruct (compose env (k_composer (x_k x)) (Some p) (Some ob)) as [sym c]. cbn [fst snd]. destruct (String.eqb sym ""); [done|].
  exact (el_classify _ (CNew (length (x_new x))) sym (p_path p) (XState (x_ifaces x) (x_concretes x) (x_new x ++ [bare_info sym]) (Caches (k_skipped (x_k x)) c))).
Qed.
Lemma el_extract_package x p : is_Some (p_module p) → extract_package env u crc mset level' scope' o (G g) (X x) (K p) = res_map X (extract_package env u crc mset level scope o1 g x p).
Proof.
  intros Hp. unfold extract_package. change (p_name (K p)) with (p_name p). change (p_types (K p)) with (p_types p). change (p_info (K p)) with (p_info p).
  destruct (String.eqb _ _); [done|]. destruct (p_info p).
  - unfold extract_local. rewrite el_get_package. destruct (get_package g p) as [tbl|]; [|done]. cbn [el_orders or_defs]. apply res_fold_same. intros. apply el_extract_def.
  - destruct (p_types p); [|done]. unfold extract_remote. rewrite Hsc. apply res_fold_same. intros. by apply el_extract_object.
Qed.
Context (h : pheap).
Definition tab_modules (t : ptab) : Prop := ∀ k q p, t !! k = Some q → h !! q = Some p → is_Some (p_module p).
Lemma el_heap_lookup (h0 : pheap) q : el_heap el h0 !! q = K <$> h0 !! q.
Proof. apply lookup_fmap. Qed.
Lemma el_extract pkgs new k : tab_modules pkgs → extract env u crc mset level' scope' o (el_heap el h) (G g) pkgs new (C k) = res_map X (extract env u crc mset level scope o1 h g pkgs new k).
Proof.
  intros Hh. unfold extract. cbn [el_orders or_packages].
  rewrite (omap_map1 (λ key, match pkgs !! key with Some q => h !! q | None => None end) (λ key, match pkgs !! key with Some q => el_heap el h !! q | None => None end) K).
  - change (XState ∅ ∅ new (C k)) with (X (XState ∅ ∅ new k)). apply (res_fold_map _ _ X K). intros a p Hin. apply el_extract_package.
    apply elem_of_list_omap in Hin as (key & _ & E). destruct (pkgs !! key) eqn:Ek; [by eapply Hh|done].
  - intros key. destruct (pkgs !! key); [|done]. apply el_heap_lookup.
Qed.
Lemma el_gained m l : gained (M m) l = gained m l.
Proof. unfold gained. apply list_omap_ext. apply Forall2_same_length_lookup_2; [done|]. intros i x y -> [= ->]. by rewrite el_cell_info. Qed.
Lemma find_modules pass types ifaces m n : has_modules (mm_g m) → has_modules (mm_g (find_implementations env mset cok o pass types ifaces m n).1).
Proof.
  intros H. unfold find_implementations. change m with (m, n).1 in H. revert H. generalize (m, n). clear m n. induction (or_types o pass types) as [|[key t] l IH]; intros [m n] H; [done|].
  cbn [foldl]. apply IH. cbn [fst snd] in *. clear IH.
  assert (Hf : ∀ {B} (F : mem → B → mem) (l : list B), (∀ m b, has_modules (mm_g m) → has_modules (mm_g (F m b))) → ∀ m, has_modules (mm_g m) → has_modules (mm_g (foldl F m l))).
  { clear. intros B F l HF. induction l as [|b l IH]; intros m Hm; [done|]. cbn. by apply IH, HF. }
  cbn [fst]. apply Hf; [|apply modules_upd, Hf; [|done]].
  - intros m1 [k [c s]] H1. by apply modules_upd.
  - intros m1 [ikey i] H1. destruct (passes env mset cok t i); [|done]. apply Hf; [|by apply modules_upd].
    intros m2 [k [c s]] H2. destruct (d_methods t !! k) as [[c1 s1]|]; [by apply modules_upd|done].
Qed.
Lemma el_search proj all k : tab_modules proj → tab_modules all →
  add_implementation_relationships env u crc mset cok level' scope' o (el_heap el h) proj all (G g) (C k) =
  res_map (λ r, (G r.1.1.1, C r.1.1.2, r.1.2, r.2)) (add_implementation_relationships env u crc mset cok level scope o1 h proj all g k).
Proof.
  intros Hp Ha. unfold add_implementation_relationships. rewrite el_extract by done. destruct (extract env u crc mset level scope o1 h g proj [] k) as [l|]; [|done]. cbn [res_map res_bind].
  change (x_new (X l)) with (x_new l). change (x_k (X l)) with (C (x_k l)). rewrite el_extract.
  2: { intros key q p Hk. apply (Ha key). revert Hk. unfold remote_packages. intros Hk. apply map_filter_lookup_Some in Hk. apply Hk. }
  destruct (extract env u crc mset level scope o1 h g (remote_packages all proj) (x_new l) (x_k l)) as [r|]; [|done]. cbn [res_map res_bind].
  change (x_new (X r)) with (x_new r). change (x_k (X r)) with (C (x_k r)). change (x_concretes (X l)) with (x_concretes l). change (x_ifaces (X l)) with (x_ifaces l).
  change (x_concretes (X r)) with (x_concretes r). change (x_ifaces (X r)) with (x_ifaces r). change (Mem (G g) (x_new r)) with (M (Mem g (x_new r))).
  rewrite el_find. destruct (find_implementations env mset cok o1 0 _ _ _ _) as [m1 n1]. cbv beta iota. cbn [fst snd].
  rewrite el_find. destruct (find_implementations env mset cok o1 1 _ _ _ _) as [m2 n2]. cbv beta iota. cbn [fst snd].
  rewrite el_find. destruct (find_implementations env mset cok o1 2 _ _ _ _) as [m3 n3]. cbv beta iota. cbn [fst snd].
  cbn [res_map fst snd]. by rewrite el_gained.
Qed.
Lemma el_impl_phase proj all k : tab_modules proj → tab_modules all →
  impl_phase env u crc mset cok level' scope' o (el_heap el h) proj all (G g) (C k) =
  res_map (option_map (λ r : global * caches * list syminfo, (G r.1.1, C r.1.2, r.2))) (impl_phase env u crc mset cok level scope o1 h proj all g k).
Proof.
  intros Hp Ha. unfold impl_phase. rewrite el_search by done. by destruct (add_implementation_relationships _ _ _ _ _ _ _ _ _ _ _ _ _) as [[[[g' k'] e] n]|].
Qed.
End Impl.
Lemma impl_modules env u crc mset cok level scope o h proj all g k g' k' e : has_modules g →
  impl_phase env u crc mset cok level scope o h proj all g k = Ok (Some (g', k', e)) → has_modules g'.
Proof.
  intros Hg. unfold impl_phase, add_implementation_relationships. destruct (extract env u crc mset level scope o h g proj [] k) as [l|]; [|done]. cbn [res_bind].
  destruct (extract env u crc mset level scope o h g (remote_packages all proj) (x_new l) (x_k l)) as [r|]; [|done]. cbn [res_bind].
  pose proof (find_modules env mset cok o 0 (x_concretes l) (x_ifaces l) (Mem g (x_new r)) 0 Hg) as H1. destruct (find_implementations env mset cok o 0 _ _ _ _) as [m1 n1].
  pose proof (find_modules env mset cok o 1 (x_concretes l) (x_ifaces r) m1 n1 H1) as H2. destruct (find_implementations env mset cok o 1 _ _ _ _) as [m2 n2].
  pose proof (find_modules env mset cok o 2 (x_concretes r) (x_ifaces l) m2 n2 H2) as H3. destruct (find_implementations env mset cok o 2 _ _ _ _) as [m3 n3].
  cbn [res_bind]. by intros [= <- _ _].
Qed.

(** *** the index *)
Context (el_empty : el "" = "") (root : string) (h : pheap).
Notation H := (el_heap el h).
Definition rel_ok (p : gpkg) : Prop := ∀ f n, f ∈ p_syntax p → fs_file fs (file_package_pos f) = Some n → doc_relative_path root' (el n) = doc_relative_path root n.
Definition base_ok (p : gpkg) : Prop := ∀ f, f ∈ p_syntax p → let n := pos_file (fs_position fs (file_package_pos f)) in path_base (el n) = path_base n ∧ path_ext (el n) = path_ext n ∧ has_suffix (el n) "_test.go" = has_suffix n "_test.go".
Context (Hrel : ∀ q p, h !! q = Some p → rel_ok p) (Hbase : ∀ q p, h !! q = Some p → base_ok p).
Context (digest : string → string) (env : tenv).
#[local] Instance el_inj_i : Inj (=) (=) el := el_inj.
Definition el_docs (d : gmap string sdoc) : gmap string sdoc := kmap el d.
Definition el_pass1 (st : gmap string sdoc * global) : gmap string sdoc * global := (el_docs st.1, G st.2).
Lemma el_set_pkg_symbol g p : set_pkg_symbol (G g) (K p) = res_map G (set_pkg_symbol g p).
Proof.
  unfold set_pkg_symbol. rewrite el_descriptors. destruct (from_descriptors p _); [|done]. cbn. unfold el_global. cbn. by rewrite fmap_insert.
Qed.
Lemma el_set_pkg_symbols all ks : ∀ g, set_pkg_symbols (G g) H all ks = res_map G (set_pkg_symbols g h all ks).
Proof.
  induction ks as [|k ks IH]; intros g; [done|]. cbn. destruct (all !! k) as [q|]; [|apply IH]. rewrite el_heap_lookup.
  destruct (h !! q) as [p|]; [|done]. cbn. rewrite el_set_pkg_symbol. destruct (set_pkg_symbol g p); [|done]. apply IH.
Qed.
Lemma el_file_name f : file_name fs' f = res_map el (file_name fs f).
Proof. unfold file_name. rewrite (ef_file _ _ _ Hfs). by destruct (fs_file fs _). Qed.
Lemma file_name_Ok f n : file_name fs f = Ok n → fs_file fs (file_package_pos f) = Some n.
Proof. unfold file_name. destruct (fs_file fs _); [|done]. by intros [= ->]. Qed.
Lemma el_add_document p docs f : rel_ok p → f ∈ p_syntax p → add_document fs' root' (el_docs docs) f = res_map el_docs (add_document fs root docs f).
Proof.
  intros Hr Hf. unfold add_document. rewrite el_file_name. destruct (file_name fs f) as [n|] eqn:E; [|done]. cbn [res_map res_bind]. unfold el_docs. rewrite (kmap_insert el).
  by rewrite (Hr f n Hf (file_name_Ok _ _ E)).
Qed.
Lemma el_add g p t : g_add (G g) (K p) t = G (g_add g p t).
Proof. unfold g_add, el_global. cbn. by rewrite fmap_insert. Qed.
Lemma el_visit_package_syntax st p : rel_ok p →
  visit_package_syntax digest env fs' root' (el_pass1 st) (K p) = res_map el_pass1 (visit_package_syntax digest env fs root st p).
Proof.
  intros Hr. unfold visit_package_syntax. change (p_syntax (K p)) with (p_syntax p). change (p_info (K p)) with (p_info p).
  change (el_pass1 st).1 with (el_docs st.1). change (el_pass1 st).2 with (G st.2). destruct (p_syntax p) as [|f l] eqn:Ef.
  - cbn [res_map]. by rewrite el_add.
  - destruct (p_info p) as [ti|]; [|done]. rewrite el_table. destruct (visit_package_table digest ti fs env p) as [t|]; [|done]. cbn [res_bind].
    rewrite (res_fold_same (add_document fs root) (add_document fs' root') el_docs).
    + destruct (res_fold (add_document fs root) st.1 (f :: l)) as [d|]; [|done]. cbn [res_map res_bind]. by rewrite el_add.
    + intros d f' Hf. apply (el_add_document p); [done|]. by rewrite Ef.
Qed.
Lemma el_find_package_docs p : base_ok p → find_package_docs fs' (K p) = find_package_docs fs p.
Proof.
  intros Hb. unfold find_package_docs. cbn [el_pkg p_syntax p_name]. f_equal. apply stable_sort_ext. intros f Hf%filter_in. destruct (Hb f Hf) as (E1 & E2 & E3).
  unfold file_relevance. by rewrite (ef_name _ _ _ Hfs), E1, E2, E3.
Qed.
Lemma el_package_info g p : base_ok p → package_info fs' (G g) (K p) = package_info fs g p.
Proof. intros Hb. unfold package_info. by rewrite el_find_package_docs. Qed.
Lemma el_package_occurrence g p f : package_occurrence fs' (G g) (K p) f = package_occurrence fs g p f.
Proof. unfold package_occurrence. by rewrite el_name_range. Qed.
Lemma el_set_package_occurrence g p docs f : set_package_occurrence fs' (G g) (K p) (el_docs docs) f = res_map el_docs (set_package_occurrence fs g p docs f).
Proof.
  unfold set_package_occurrence. rewrite el_file_name. destruct (file_name fs f) as [n|]; [|done]. cbn [res_map res_bind]. unfold el_docs at 1. rewrite (lookup_kmap el).
  destruct (docs !! n); [|done]. cbn [res_map]. rewrite el_package_occurrence. unfold el_docs. by rewrite (kmap_insert el).
Qed.
Lemma el_g_set g p z i : g_set (G g) (K p) z i = G (g_set g p z i).
Proof.
  unfold g_set. change (p_path (K p)) with (p_path p). cbn [el_global g_symbols]. rewrite lookup_fmap. destruct (g_symbols g !! p_path p) as [[q t]|]; [|done].
  cbn [fmap option_fmap option_map fst snd g_pkgsyms]. unfold el_global. cbn [g_symbols g_pkgsyms]. by rewrite fmap_insert.
Qed.
Lemma el_visit_project_package st p : rel_ok p → base_ok p →
  visit_project_package digest env fs' root' (el_pass1 st) (K p) = res_map el_pass1 (visit_project_package digest env fs root st p).
Proof.
  intros Hr Hb. unfold visit_project_package. rewrite el_visit_package_syntax by done. destruct (visit_package_syntax digest env fs root st p) as [st'|]; [|done]. cbn [res_bind res_map].
  change (p_syntax (K p)) with (p_syntax p). destruct (p_syntax p) as [|f l]; [done|].
  rewrite el_file_name. destruct (file_name fs f) as [n|]; [|done]. cbn [res_bind res_map].
  change (el_pass1 st').1 with (el_docs st'.1). change (el_pass1 st').2 with (G st'.2). unfold el_docs at 1. rewrite (lookup_kmap el). destruct (st'.1 !! n); [|done].
  rewrite el_package_info by done. rewrite el_g_set. set (g' := g_set _ _ _ _).
  rewrite (res_fold_same (set_package_occurrence fs g' p) (set_package_occurrence fs' (G g') (K p)) el_docs) by (intros; apply el_set_package_occurrence).
  by destruct (res_fold (set_package_occurrence fs g' p) st'.1 (f :: l)).
Qed.
Lemma el_packages_of t order : packages_of H t order = map K (packages_of h t order).
Proof. unfold packages_of. apply omap_map1. intros k. destruct (t !! k) as [q|]; [|done]. apply el_heap_lookup. Qed.
Lemma packages_of_heap t order p : p ∈ packages_of h t order → ∃ k q, t !! k = Some q ∧ h !! q = Some p.
Proof. unfold packages_of. intros (k & _ & E)%elem_of_list_omap. destruct (t !! k) as [q|] eqn:Ek; [by exists k, q|done]. Qed.
Lemma el_new_global : G new_global = new_global.
Proof. unfold el_global, new_global. cbn. by rewrite fmap_empty. Qed.
Lemma el_index_visit_packages proj all porder aorder :
  index_visit_packages digest env fs' H root' proj all porder aorder = res_map el_pass1 (index_visit_packages digest env fs h root proj all porder aorder).
Proof.
  unfold index_visit_packages. rewrite <-el_new_global at 1. rewrite el_set_pkg_symbols. destruct (set_pkg_symbols new_global h all aorder) as [g|]; [|done]. cbn [res_map res_bind].
  rewrite el_packages_of. assert ((∅ : gmap string sdoc, G g) = el_pass1 (∅, g)) as -> by (unfold el_pass1, el_docs; cbn; by rewrite (kmap_empty el)).
  apply (res_fold_map _ _ el_pass1 K). intros a b Hin. destruct (packages_of_heap _ _ _ Hin) as (k & q & _ & Hq). apply el_visit_project_package; [by eapply Hrel|by eapply Hbase].
Qed.
(** every package in the global table has a module *)
Lemma set_pkg_symbols_modules all ks : tab_modules h all → ∀ g g', has_modules g → set_pkg_symbols g h all ks = Ok g' → has_modules g'.
Proof.
  intros Ha. induction ks as [|k ks IH]; intros g g' Hg; cbn; [by intros [= <-]|]. destruct (all !! k) as [q|] eqn:Ek; [|by apply IH]. destruct (h !! q) as [p|] eqn:Eq; [|done].
  unfold set_pkg_symbol. destruct (from_descriptors p _); [|done]. cbn [res_bind]. apply IH. intros id e. cbn. rewrite lookup_insert_Some. intros [[_ <-]|[_ E]]; [by eapply Ha|by eapply Hg].
Qed.
Lemma g_add_modules g p t : has_modules g → is_Some (p_module p) → has_modules (g_add g p t).
Proof. intros Hg Hp id e. cbn. rewrite lookup_insert_Some. intros [[_ <-]|[_ E]]; [done|by eapply Hg]. Qed.
Lemma g_set_modules g p z i : has_modules g → has_modules (g_set g p z i).
Proof.
  intros Hg. unfold g_set. destruct (g_symbols g !! p_path p) as [[q t]|] eqn:E; [|done]. intros id e. cbn. rewrite lookup_insert_Some. intros [[_ <-]|[_ E1]]; [exact (Hg _ _ E)|by eapply Hg].
Qed.
Lemma visit_modules st st' p : has_modules st.2 → is_Some (p_module p) → visit_project_package digest env fs root st p = Ok st' → has_modules st'.2.
Proof.
  intros Hg Hp. unfold visit_project_package, visit_package_syntax. destruct (p_syntax p) as [|f l].
  - cbn [res_bind]. intros [= <-]. by apply g_add_modules.
  - destruct (p_info p) as [ti|]; [|done]. destruct (visit_package_table _ _ _ _ _) as [t|]; [|done]. cbn [res_bind]. destruct (res_fold (add_document fs root) _ _) as [d|]; [|done]. cbn [res_bind].
    destruct (file_name fs f) as [n|]; [|done]. cbn [res_bind fst snd]. destruct (d !! n); [|done]. destruct (res_fold _ _ _) as [d'|]; [|done]. cbn [res_bind]. intros [= <-]. cbn [snd].
    by apply g_set_modules, g_add_modules.
Qed.
Lemma index_visit_modules proj all porder aorder st : tab_modules h proj → tab_modules h all → index_visit_packages digest env fs h root proj all porder aorder = Ok st → has_modules st.2.
Proof.
  intros Hp Ha. unfold index_visit_packages. destruct (set_pkg_symbols new_global h all aorder) as [g|] eqn:E; [|done]. cbn [res_bind].
  assert (has_modules g) as Hg by (eapply set_pkg_symbols_modules; [exact Ha| |exact E]; intros id e He; cbn in He; by rewrite lookup_empty in He).
  assert (Hin : ∀ p, p ∈ packages_of h proj porder → is_Some (p_module p)) by (intros p (k & q & Hk & Hq)%packages_of_heap; by eapply Hp).
  change g with ((∅ : gmap string sdoc, g).2) in Hg. revert Hg. generalize (∅ : gmap string sdoc, g). induction (packages_of h proj porder) as [|p l IH]; intros s Hs; cbn [res_fold]; [by intros [= <-]|].
  destruct (visit_project_package digest env fs root s p) as [s'|] eqn:Es; [|done]. cbn [res_bind]. apply IH; [intros; apply Hin; by right|]. eapply visit_modules; [exact Hs|apply Hin; left|exact Es].
Qed.
Lemma el_imports_of p s : imports_of H (K p) s = K <$> imports_of h p s.
Proof. unfold imports_of. cbn [el_pkg p_imports]. destruct (List.find _ _); [apply el_heap_lookup|done]. Qed.
Context (objstr : obj → string) (mo : map_orders).
Definition el_dc (r : document * caches) : document * caches := (r.1, C r.2).
Lemma el_index_file g n k p f d : has_modules g → index_file env fs' H objstr mo (G g) n (C k) (K p) f d = res_map el_dc (index_file env fs h objstr mo g n k p f d).
Proof.
  intros Hg. unfold index_file. change (p_info (K p)) with (p_info p). destruct (p_info p) as [ti|]; [|done]. destruct (sd_occ d) as [po|]; [|done].
  rewrite el_file_name. destruct (file_name fs f) as [name|]; [|done]. cbn [res_map res_bind]. rewrite el_get_package. set (tbl := match get_package g p with Some t => t | None => ∅ end).
  rewrite (el_visit_file env ti g Hg p tbl (imports_of h p) (imports_of H (K p)) (el_imports_of p)). destruct (visit_file _ _ _ _ _ _ _ _ _ _) as [st|]; [|done]. cbn [res_map res_bind].
  unfold el_dc. cbn [fst snd]. change (f_locals (el_fstate st)) with (f_locals st). change (f_caches (el_fstate st)) with (C (f_caches st)). by rewrite el_to_document.
Qed.
Context (w w' : writer) (R : message → message) (HR : ∀ d, R (MDoc d) = MDoc d) (HE : ∀ i, R (MExt i) = MExt i) (Hw : ∀ l m, w' (map R l) (R m) = w l m).
Lemma el_write_documents g docs items : has_modules g → ∀ sofar n k,
  write_documents env fs' H objstr mo w' (G g) (el_docs docs) (map R sofar) n (C k) (map (λ x : gpkg * node, (K x.1, x.2)) items) =
  (λ r : list message * Index.outcome * caches, (map R r.1.1, r.1.2, C r.2)) (write_documents env fs h objstr mo w g docs sofar n k items).
Proof.
  intros Hg. induction items as [|[p f] items IH]; intros sofar n k; [done|]. cbn [map write_documents fst snd]. rewrite el_file_name.
  destruct (file_name fs f) as [name|]; [|done]. cbn [res_map]. unfold el_docs at 1. rewrite (lookup_kmap el). destruct (docs !! name); [|apply IH]. rewrite el_index_file by done.
  destruct (index_file _ _ _ _ _ _ _ _ _ _ _) as [[doc k']|]; [|done]. cbn [res_map el_dc fst snd]. assert (w' (map R sofar) (MDoc doc) = w sofar (MDoc doc)) as -> by (rewrite <-Hw; by rewrite HR). destruct (w sofar (MDoc doc)); [by rewrite ?HR|].
  rewrite <-IH, List.map_app. cbn [map]. by rewrite ?HR.
Qed.
Lemma el_write_all l : ∀ sofar, write_all w' (map R sofar) (map MExt l) = (λ r : list message * option string, (map R r.1, r.2)) (write_all w sofar (map MExt l)).
Proof.
  induction l as [|i l IH]; intros sofar; [done|]. cbn. assert (w' (map R sofar) (MExt i) = w sofar (MExt i)) as -> by (rewrite <-Hw; by rewrite HE). destruct (w sofar (MExt i)); [by rewrite ?HE|]. rewrite <-IH, List.map_app. cbn [map]. by rewrite ?HE.
Qed.
Lemma el_items_of ps : items_of (map K ps) = map (λ x : gpkg * node, (K x.1, x.2)) (items_of ps).
Proof.
  unfold items_of. induction ps as [|p ps IH]; [done|]. cbn [map List.concat]. rewrite IH, List.map_app. f_equal. cbn [el_pkg p_syntax]. by rewrite map_map.
Qed.
Lemma el_index impl impl' impl_error version skip meta meta' ld porder aorder porder2 :
  R (MMeta meta) = MMeta meta' →
  (∀ all proj, ld = LoadOk all proj → tab_modules h proj ∧ tab_modules h all) →
  (∀ g k, has_modules g → impl' (G g) (C k) = res_map (option_map (λ r : global * caches * list syminfo, (G r.1.1, C r.1.2, r.2))) (impl g k)) →
  (∀ g k g' k' e, has_modules g → impl g k = Ok (Some (g', k', e)) → has_modules g') →
  Index.index digest env fs' H objstr mo w' impl' impl_error root' version skip meta' ld porder aorder porder2 =
  (λ r : list message * Index.outcome, (map R r.1, r.2)) (Index.index digest env fs h objstr mo w impl impl_error root version skip meta ld porder aorder porder2).
Proof.
  intros Hm Hld Hi Him. unfold Index.index. assert (w' [] (MMeta meta') = w [] (MMeta meta)) as -> by (rewrite <-Hm; exact (Hw [] _)).
  destruct (w [] (MMeta meta)); [done|]. destruct ld as [e|all proj]; [cbn; by rewrite Hm|]. destruct (Hld all proj eq_refl) as [Hp Ha].
  rewrite el_index_visit_packages. destruct (index_visit_packages digest env fs h root proj all porder aorder) as [[docs g]|] eqn:Ev; [|cbn; by rewrite Hm]. cbn [res_map el_pass1 fst snd].
  assert (has_modules g) as Hg by exact (index_visit_modules _ _ _ _ _ Hp Ha Ev).
  change (Caches ∅ (new_composer root' version)) with (C (Caches ∅ (new_composer root version))). set (k := Caches ∅ (new_composer root version)).
  assert ((if skip then Ok (Some (G g, C k, [])) else impl' (G g) (C k)) =
    res_map (option_map (λ r : global * caches * list syminfo, (G r.1.1, C r.1.2, r.2))) (if skip then Ok (Some (g, k, [])) else impl g k)) as -> by (destruct skip; [done|by apply Hi]).
  destruct (if skip then Ok (Some (g, k, [])) else impl g k) as [[[[g' k'] exts]|]|] eqn:Ei; [|cbn; by rewrite Hm..]. cbn [res_map option_map fst snd].
  assert (has_modules g') as Hg' by (destruct skip; [by injection Ei as <- _ _|by eapply Him]).
  rewrite el_packages_of, el_items_of. rewrite <-Hm. change [R (MMeta meta)] with (map R [MMeta meta]). rewrite el_write_documents by done.
  destruct (write_documents _ _ _ _ _ _ _ _ _ _ _ _) as [[msgs [[e|]|m]] k2]; cbn [fst snd]; [done| |done]. rewrite el_write_all. by destruct (write_all w msgs (map MExt exts)).
Qed.
End El.
