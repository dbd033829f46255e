(** The search for implementations and the loader commute with a move of all positions. *)
From Coq Require Import Ascii String.
From stdpp Require Import prelude strings gmap sorting relations.
From Verif Require Import GoStr Scip GoTypes Ast Packages Symbols Document Lookup Pass1 Pass2 Paths Loader Index Quote Fingerprint Impls SpecMove P_Move P_Move2.
Open Scope string_scope.
Open Scope list_scope.

Definition mv_cell (mv : Z → Z) (c : cell) : cell := match c with CTab id z => CTab id (mv z) | CNew n => CNew n end.
Notation methods := (gmap string (cell * string)).
Definition mv_methods (mv : Z → Z) (ms : methods) : methods := (λ e : cell * string, (mv_cell mv e.1, e.2)) <$> ms.
Definition mv_def (mv : Z → Z) (d : impldef) : impldef :=
  ImplDef (mv_cell mv (d_sym d)) (d_symbol d) (d_named d) (mv_methods mv (d_methods d)) (d_mask d) (d_count d) (d_unexported d) (d_pkg d).
Definition mv_defs (mv : Z → Z) (d : defs) : defs := mv_def mv <$> d.

Lemma mv_cell_cancel mv back c : opposite mv back → mv_cell mv (mv_cell back c) = c.
Proof. intros Ho. destruct c; cbn; [|done]. by rewrite (back_cancel mv back Ho). Qed.
Lemma mv_methods_cancel mv back ms : opposite mv back → mv_methods mv (mv_methods back ms) = ms.
Proof.
  intros Ho. apply map_eq. intros k. unfold mv_methods. rewrite !lookup_fmap. destruct (ms !! k) as [[c s]|]; [|done]. cbn. by rewrite (mv_cell_cancel mv back).
Qed.
Lemma mv_def_cancel mv back d : opposite mv back → mv_def mv (mv_def back d) = d.
Proof. intros Ho. destruct d as [a1 a2 a3 a4 a5 a6 a7 a8]. unfold mv_def. cbn [d_sym d_symbol d_named d_methods d_mask d_count d_unexported d_pkg]. by rewrite (mv_cell_cancel mv back), (mv_methods_cancel mv back). Qed.

(** the orders seen from the positions before the move *)
Definition back_orders (mv back : Z → Z) (o : orders) : orders :=
  let ds := map (λ e : string * impldef, (e.1, mv_def back e.2)) in
  let ms := map (λ e : string * (cell * string), (e.1, (mv_cell back e.2.1, e.2.2))) in
  Orders (or_packages o) (λ p, map (mv_obj back) (or_defs o (mv_pkg mv back p)))
    (λ n d, ds (or_types o n (mv_defs mv d))) (λ n k d, ds (or_ifaces o n k (mv_defs mv d)))
    (λ n k k' m, ms (or_imethods o n k k' (mv_methods mv m))) (λ n k m, ms (or_tmethods o n k (mv_methods mv m)))
    (λ d, ds (or_collect o (mv_defs mv d))).

Section Move.
Context (mv back : Z → Z) (Hop : opposite mv back).
Notation O := (mv_obj mv).
Notation K := (mv_pkg mv back).
Notation G := (mv_global mv back).
Notation H := (mv_heap mv back).
Notation C := (mv_cell mv).
Notation D := (mv_def mv).
#[local] Instance mv_inj3 : Inj (=) (=) mv := mv_inj mv back Hop.

Definition mv_mem (m : mem) : mem := Mem (G (mm_g m)) (mm_new m).
Notation M := mv_mem.
Lemma mv_upd_cell f m c : upd_cell f (M m) (C c) = M (upd_cell f m c).
Proof.
  destruct c as [id z|n]; [|done]. unfold upd_cell, mv_mem, mv_global. cbn. f_equal. f_equal.
  apply (alter_fmap' _ _ (mv_entry mv back)). intros [p t]. unfold mv_entry. cbn. f_equal. unfold mv_table. symmetry. apply (kmap_alter mv).
Qed.
Lemma mv_add_rel s m c : add_rel s (M m) (C c) = M (add_rel s m c). Proof. apply mv_upd_cell. Qed.
Lemma mv_canon m c : canon (M m) (C c) = M (canon m c). Proof. apply mv_upd_cell. Qed.
Lemma mv_cell_info m c : cell_info (M m) (C c) = cell_info m c.
Proof. destruct c; [|done]. cbn -[get_info_by_path]. apply (mv_get_info mv back Hop). Qed.

Section Impl.
Context (env : tenv) (u : unicode) (crc : string → N) (mset mset' : ty → list obj) (cok : ty → ty → bool).
Context (Hms : ∀ t, mset' t = map O (mset t)).
Context (level level' : gpkg → obj → bool) (Hlv : ∀ p o, level' (K p) (O o) = level p o).
Context (scope scope' : gpkg → list obj) (Hsc : ∀ p, scope' (K p) = map O (scope p)).

Lemma mv_implements v ms s : implements mset' cok v ms s = implements mset cok v ms s.
Proof.
  unfold implements. f_equal. apply forallb_same. intros [name t]. cbn. rewrite Hms. apply existsb_map. intros m. by rewrite mv_obj_Id, mv_o_type.
Qed.
Lemma mv_passes t i : passes env mset' cok (D t) (D i) = passes env mset cok t i.
Proof. unfold passes. cbn. destruct (underlying env (d_named i)); try done. by rewrite !mv_implements. Qed.
Lemma mv_mset_lookup l m : mset_lookup (map O l) (O m) = O <$> mset_lookup l m.
Proof. unfold mset_lookup. apply find_map. intros x. by rewrite !mv_obj_Id. Qed.
Lemma mv_intuitive t : intuitive_method_set env mset' t = map O (intuitive_method_set env mset t).
Proof.
  unfold intuitive_method_set. destruct (is_interface env t); [apply Hms|]. rewrite !Hms, !map_map. apply map_ext. intros m. rewrite mv_mset_lookup. by destruct (mset_lookup (mset t) m).
Qed.
Lemma mv_method_mask l : method_mask u crc (map O l) = method_mask u crc l.
Proof.
  unfold method_mask. rewrite <-(res_map_id (res_fold _ 0%N l)). apply (res_fold_map _ _ (λ a, a) O). intros a b _. rewrite res_map_id. by rewrite mv_o_type, mv_obj_Id.
Qed.
Lemma mv_has_unexported l : has_unexported_methods (map O l) = has_unexported_methods l.
Proof. unfold has_unexported_methods. apply existsb_map. intros m. by rewrite mv_o_name. Qed.

(** the passes *)
Context (o : orders).
Notation o' := (back_orders mv back o).
Notation ED := (λ e : string * impldef, (e.1, D e.2)).
Notation EM := (λ e : string * (cell * string), (e.1, (C e.2.1, e.2.2))).
Lemma back_ds l : map ED (map (λ e : string * impldef, (e.1, mv_def back e.2)) l) = l.
Proof. apply map_cancel. intros [k d]. cbn. by rewrite (mv_def_cancel mv back). Qed.
Lemma back_ms l : map EM (map (λ e : string * (cell * string), (e.1, (mv_cell back e.2.1, e.2.2))) l) = l.
Proof. apply map_cancel. intros [k [c s]]. cbn. by rewrite (mv_cell_cancel mv back). Qed.
Definition mv_mc (r : mem * nat) : mem * nat := (M r.1, r.2).
Lemma mv_find_implementations pass types ifaces m count :
  find_implementations env mset' cok o pass (mv_defs mv types) (mv_defs mv ifaces) (M m) count =
  mv_mc (find_implementations env mset cok o' pass types ifaces m count).
Proof.
  unfold find_implementations. rewrite <-(back_ds (or_types o pass (mv_defs mv types))).
  change (map (λ e : string * impldef, (e.1, mv_def back e.2)) (or_types o pass (mv_defs mv types))) with (or_types o' pass types).
  change (M m, count) with (mv_mc (m, count)).
  apply (foldl_map _ _ mv_mc ED). intros [m0 n] [key t]. unfold mv_mc. cbn [fst snd]. f_equal.
  assert (Hi : ∀ m1, foldl (λ m ki, let '(ikey, i) := (ki : string * impldef) in
            if passes env mset' cok (D t) i then
              foldl (λ m nc, let '(name, (_, s)) := (nc : string * (cell * string)) in
                  match d_methods (D t) !! name with Some (c, _) => add_rel s m c | None => m end)
                (add_rel (d_symbol i) m (d_sym (D t))) (or_imethods o pass key ikey (d_methods i))
            else m) (M m1) (or_ifaces o pass key (mv_defs mv ifaces)) =
      M (foldl (λ m ki, let '(ikey, i) := (ki : string * impldef) in
            if passes env mset cok t i then
              foldl (λ m nc, let '(name, (_, s)) := (nc : string * (cell * string)) in
                  match d_methods t !! name with Some (c, _) => add_rel s m c | None => m end)
                (add_rel (d_symbol i) m (d_sym t)) (or_imethods o' pass key ikey (d_methods i))
            else m) m1 (or_ifaces o' pass key ifaces))).
  { intros m1. rewrite <-(back_ds (or_ifaces o pass key (mv_defs mv ifaces))). apply (foldl_map _ _ M ED). intros m2 [ikey i]. cbn [fst snd]. rewrite mv_passes.
    destruct (passes env mset cok t i); [|done]. change (d_sym (D t)) with (C (d_sym t)). change (d_symbol (D i)) with (d_symbol i). rewrite mv_add_rel.
    change (d_methods (D i)) with (mv_methods mv (d_methods i)). rewrite <-(back_ms (or_imethods o pass key ikey (mv_methods mv (d_methods i)))).
    apply (foldl_map _ _ M EM). intros m3 [name [c s]]. cbn [fst snd]. change (d_methods (D t)) with (mv_methods mv (d_methods t)). unfold mv_methods. rewrite lookup_fmap.
    destruct (d_methods t !! name) as [[c1 s1]|]; [|done]. apply mv_upd_cell. }
  rewrite Hi. change (d_sym (D t)) with (C (d_sym t)). rewrite mv_canon.
  change (d_methods (D t)) with (mv_methods mv (d_methods t)). rewrite <-(back_ms (or_tmethods o pass key (mv_methods mv (d_methods t)))).
  apply (foldl_map _ _ M EM). intros m3 [name [c s]]. apply mv_upd_cell.
Qed.

(** the extractor *)
Definition mv_x (st : xstate) : xstate := XState (mv_defs mv (x_ifaces st)) (mv_defs mv (x_concretes st)) (x_new st) (x_k st).
Notation X := mv_x.
Lemma mv_first_some' {A B} (f : string → option A) (f' : string → option B) (r : A → B) l : (∀ x, f' x = r <$> f x) → first_some f' l = r <$> first_some f l.
Proof. intros Hf. induction l as [|x l IH]; [done|]. cbn. rewrite Hf. by destruct (f x). Qed.
Lemma mv_object_cell g ob : object_cell (G g) (O ob) = C <$> object_cell g ob.
Proof.
  unfold object_cell. rewrite mv_o_pkg. destruct (o_pkg ob); [|done]. apply mv_first_some'. intros id. rewrite mv_o_pos, (mv_get_info mv back Hop). by destruct (get_info_by_path g id (o_pos ob)).
Qed.
Definition mv_acc (acc : methods * (list syminfo * caches)) : methods * (list syminfo * caches) := (mv_methods mv acc.1, acc.2).
Lemma mv_method_symbol g acc m : method_symbol env (G g) (mv_acc acc) (O m) = res_map mv_acc (method_symbol env g acc m).
Proof.
  destruct acc as [ms [new k]]. unfold method_symbol, mv_acc. cbn [fst snd]. rewrite (mv_get_symbol_of_object mv back Hop).
  destruct (get_symbol_of_object env g k m) as [[r k']|]; [|done]. cbn [res_bind res_map fst snd]. destruct r as [info| |]; [|done..].
  rewrite mv_object_cell, mv_obj_Id. unfold mv_methods. destruct (object_cell g m) as [c|]; cbn; by rewrite fmap_insert.
Qed.
Lemma mv_classify g named sym symbol pkg st : classify env u crc mset' (G g) named (C sym) symbol pkg (X st) = res_map X (classify env u crc mset g named sym symbol pkg st).
Proof.
  unfold classify. rewrite mv_intuitive. destruct (intuitive_method_set env mset named) as [|m0 l] eqn:E; [done|]. rewrite <-E in *. set (ml := intuitive_method_set env mset named) in *.
  assert (Hm : map O ml ≠ []) by (rewrite E; done). destruct (map O ml) as [|m1 l1] eqn:E1; [done|]. rewrite <-E1. clear Hm.
  change (x_new (X st)) with (x_new st). change (x_k (X st)) with (x_k st).
  assert (((∅ : methods), (x_new st, x_k st)) = mv_acc (∅, (x_new st, x_k st))) as E0 by (unfold mv_acc, mv_methods; cbn; by rewrite fmap_empty).
  rewrite E0 at 1. rewrite (res_fold_map (method_symbol env g) (method_symbol env (G g)) mv_acc O) by (intros; apply mv_method_symbol).
  destruct (res_fold (method_symbol env g) _ _) as [[ms [new k]]|]; [|done]. cbn [res_map res_bind]. rewrite mv_method_mask.
  change (mv_acc (ms, (new, k))) with (mv_methods mv ms, (new, k)). cbv iota beta.
  destruct (method_mask u crc ml); [|done]. cbn [res_map res_bind]. rewrite mv_has_unexported, map_length. f_equal. unfold mv_x, mv_defs.
  destruct (is_interface env named); cbn; by rewrite fmap_insert.
Qed.
Lemma mv_is_type_name ob : is_type_name (O ob) = is_type_name ob.
Proof. unfold is_type_name. by rewrite mv_o_kind. Qed.
Lemma mv_extract_def g p tbl st ob :
  extract_def env u crc mset' level' (G g) (K p) (mv_table mv tbl) (X st) (O ob) = res_map X (extract_def env u crc mset level g p tbl st ob).
Proof.
  unfold extract_def. rewrite mv_is_type_name, Hlv, mv_o_type, mv_o_pos. change (p_types (K p)) with (p_types p). change (p_path (K p)) with (p_path p).
  destruct (negb (is_type_name ob)); [done|]. destruct (match p_types p with Some _ => _ | None => _ end); [done|]. destruct (o_type ob); try done.
  unfold pget. rewrite (mv_lookup mv back Hop). destruct (tbl !! o_pos ob); [|done]. exact (mv_classify g _ (CTab (p_path p) (o_pos ob)) _ _ st).
Qed.
Lemma mv_extract_local g p st : extract_local env u crc mset' level' o (G g) (K p) (X st) = res_map X (extract_local env u crc mset level o' g p st).
Proof.
  unfold extract_local. rewrite mv_get_package. destruct (get_package g p) as [tbl|]; [|done]. cbn [fmap option_fmap option_map].
  assert (or_defs o (K p) = map O (or_defs o' p)) as ->.
  { cbn [back_orders or_defs]. symmetry. apply map_cancel. intros b. apply (mv_obj_cancel back mv (opposite_sym _ _ Hop)). }
  apply (res_fold_map _ _ X O). intros. apply mv_extract_def.
Qed.
Lemma mv_extract_object g p st ob : extract_object env u crc mset' (G g) (K p) (X st) (O ob) = res_map X (extract_object env u crc mset g p st ob).
Proof.
  unfold extract_object. rewrite mv_is_type_name, mv_o_name, mv_o_type. destruct (negb _); [done|]. destruct (o_type ob) eqn:Et; try done.
  change (x_k (X st)) with (x_k st). pose proof (mv_compose mv back env (k_composer (x_k st)) (Some p) (Some ob)) as Ec. cbn [fmap option_fmap option_map] in Ec. rewrite Ec.
  destruct (compose env (k_composer (x_k st)) (Some p) (Some ob)) as [sym c]. destruct (String.eqb sym ""); [done|].
  exact (mv_classify g _ (CNew (length (x_new st))) sym (p_path p) (XState (x_ifaces st) (x_concretes st) (x_new st ++ [bare_info sym]) (Caches (k_skipped (x_k st)) c))).
Qed.
Lemma mv_extract_package g st p : extract_package env u crc mset' level' scope' o (G g) (X st) (K p) = res_map X (extract_package env u crc mset level scope o' g st p).
Proof.
  unfold extract_package. change (p_name (K p)) with (p_name p). change (p_types (K p)) with (p_types p). change (p_info (K p)) with (mv_info mv back <$> p_info p).
  destruct (String.eqb _ _); [done|]. destruct (p_info p); cbn [fmap option_fmap option_map]; [apply mv_extract_local|]. destruct (p_types p); [|done].
  unfold extract_remote. rewrite Hsc. apply (res_fold_map _ _ X O). intros. apply mv_extract_object.
Qed.
Lemma mv_extract h g pkgs new k : extract env u crc mset' level' scope' o (H h) (G g) pkgs new k = res_map X (extract env u crc mset level scope o' h g pkgs new k).
Proof.
  unfold extract. cbn [back_orders or_packages].
  assert (XState ∅ ∅ new k = X (XState ∅ ∅ new k)) as E0 by (unfold mv_x, mv_defs; cbn; by rewrite fmap_empty).
  rewrite E0 at 1. rewrite (omap_map1 (λ key, match pkgs !! key with Some q => h !! q | None => None end) _ K).
  - apply (res_fold_map _ _ X K). intros. apply mv_extract_package.
  - intros key. destruct (pkgs !! key); [|done]. apply mv_heap_lookup.
Qed.
Lemma mv_gained m l : gained (M m) (map ED l) = gained m l.
Proof.
  unfold gained. rewrite (omap_map (λ kt : string * impldef, match cell_info m (d_sym kt.2) with
                | Some i => match i_relationships i with [] => None | _ => Some i end
                | None => None end) _ ED (λ x, x)); [by rewrite List.map_id|].
  intros [k d]. cbn [fst snd]. change (d_sym (D d)) with (C (d_sym d)). rewrite mv_cell_info. destruct (cell_info m (d_sym d)) as [i|]; [|done]. by destruct (i_relationships i).
Qed.
Lemma mv_search h proj all g k :
  add_implementation_relationships env u crc mset' cok level' scope' o (H h) proj all (G g) k =
  res_map (λ r, (G r.1.1.1, r.1.1.2, r.1.2, r.2)) (add_implementation_relationships env u crc mset cok level scope o' h proj all g k).
Proof.
  unfold add_implementation_relationships. rewrite mv_extract. destruct (extract env u crc mset level scope o' h g proj [] k) as [l|]; [|done]. cbn [res_map res_bind].
  change (x_new (X l)) with (x_new l). change (x_k (X l)) with (x_k l). rewrite mv_extract.
  destruct (extract env u crc mset level scope o' h g (remote_packages all proj) (x_new l) (x_k l)) as [r|]; [|done]. cbn [res_map res_bind].
  change (x_new (X r)) with (x_new r). change (x_k (X r)) with (x_k r).
  change (x_concretes (X l)) with (mv_defs mv (x_concretes l)). change (x_ifaces (X l)) with (mv_defs mv (x_ifaces l)).
  change (x_concretes (X r)) with (mv_defs mv (x_concretes r)). change (x_ifaces (X r)) with (mv_defs mv (x_ifaces r)).
  change (Mem (G g) (x_new r)) with (M (Mem g (x_new r))).
  rewrite mv_find_implementations. destruct (find_implementations env mset cok o' 0 _ _ _ _) as [m1 n1]. unfold mv_mc at 1. cbv beta iota. cbn [fst snd].
  rewrite mv_find_implementations. destruct (find_implementations env mset cok o' 1 _ _ _ _) as [m2 n2]. unfold mv_mc at 1. cbv beta iota. cbn [fst snd].
  rewrite mv_find_implementations. destruct (find_implementations env mset cok o' 2 _ _ _ _) as [m3 n3]. unfold mv_mc at 1. cbv beta iota. cbn [fst snd].
  cbn [res_map fst snd]. rewrite <-(back_ds (or_collect o (mv_defs mv (x_concretes r)))), mv_gained. unfold mv_defs. rewrite !map_size_fmap. done.
Qed.
Lemma mv_impl_phase h proj all g k :
  impl_phase env u crc mset' cok level' scope' o (H h) proj all (G g) k =
  res_map (option_map (λ r : global * caches * list syminfo, (G r.1.1, r.1.2, r.2))) (impl_phase env u crc mset cok level scope o' h proj all g k).
Proof. unfold impl_phase. rewrite mv_search. by destruct (add_implementation_relationships _ _ _ _ _ _ _ _ _ _ _ _ _) as [[[[g' k'] e] n]|]. Qed.
End Impl.

(** *** the loader *)
Section Load.
Context (o : index_opts) (w : world).
Lemma mv_normalize p : normalize_package o w (K p) = res_map K (normalize_package o w p).
Proof.
  unfold normalize_package. destruct (io_driver_set o); [done|].
  change (is_standard_lib (K p)) with (is_standard_lib p). change (p_path (K p)) with (p_path p).
  destruct (is_standard_lib p || io_indexing_stdlib o)%bool; cbn [p_module with_path with_module mv_pkg].
  - by destruct (resolve_local _ _).
  - destruct (p_module p); [|done]. by destruct (resolve_local _ _).
Qed.
Lemma normalize_syntax p p' : normalize_package o w p = Ok p' → p_syntax p' = p_syntax p.
Proof.
  unfold normalize_package. destruct (io_driver_set o); [by intros [= <-]|].
  destruct (is_standard_lib p || io_indexing_stdlib o)%bool; cbn [p_module with_path with_module].
  - destruct (resolve_local _ _); [|done]. by intros [= <-].
  - destruct (p_module p); [|done]. destruct (resolve_local _ _); [|done]. by intros [= <-].
Qed.
Lemma mv_skips h t p : skips (H h) t (K p) = skips h t p.
Proof.
  unfold skips, files_of. change (p_path (K p)) with (p_path p). destruct (t !! p_path p) as [q|]; [|done]. rewrite mv_heap_lookup. unfold nfiles.
  destruct (h !! q); [|done]. cbn. by rewrite !map_length.
Qed.
Definition mv_lstate (s : lstate) : lstate := LState (H (ls_heap s)) (ls_tab s) (ls_stack s).
Lemma mv_lstep s s' : lstep o w s s' → lstep o w (mv_lstate s) (mv_lstate s').
Proof.
  destruct 1 as [h t p g st Hg Hs|h t p g g' order st Hg Hs Hn Ho].
  - unfold mv_lstate. cbn [ls_heap ls_tab ls_stack]. apply (L_skip _ _ _ _ _ (K g)); [by rewrite mv_heap_lookup, Hg|by rewrite mv_skips].
  - unfold mv_lstate. cbn [ls_heap ls_tab ls_stack]. unfold mv_heap at 2. rewrite fmap_insert.
    apply (L_visit _ _ _ _ _ (K g) (K g')); [by rewrite mv_heap_lookup, Hg|by rewrite mv_skips|by rewrite mv_normalize, Hn|done].
Qed.
Lemma mv_lstep_back s s' : lstep o w (mv_lstate s) s' → ∃ s1, s' = mv_lstate s1 ∧ lstep o w s s1.
Proof.
  destruct s as [h t st]. unfold mv_lstate at 1. cbn [ls_heap ls_tab ls_stack]. inversion 1 as [h1 t1 p g st1 Hg Hs|h1 t1 p g g' order st1 Hg Hs Hn Ho]; subst.
  - rewrite mv_heap_lookup in Hg. destruct (h !! p) as [g0|] eqn:E; [|done]. injection Hg as <-. rewrite mv_skips in Hs.
    exists (LState h t st1). split; [done|]. by apply (L_skip _ _ _ _ _ g0).
  - rewrite mv_heap_lookup in Hg. destruct (h !! p) as [g0|] eqn:E; [|done]. injection Hg as <-. rewrite mv_skips in Hs.
    rewrite mv_normalize in Hn. destruct (normalize_package o w g0) as [g1|] eqn:En; [|done]. injection Hn as <-.
    exists (LState (<[p := g1]> h) (<[p_path g1 := p]> t) (order ++ st1)). split.
    + unfold mv_lstate. cbn [ls_heap ls_tab ls_stack]. unfold mv_heap. by rewrite fmap_insert.
    + by apply (L_visit _ _ _ _ _ g0 g1).
Qed.
Lemma mv_lsteps s s' : rtc (lstep o w) s s' → rtc (lstep o w) (mv_lstate s) (mv_lstate s').
Proof. induction 1 as [|s s1 s2 Hs _ IH]; [done|]. eapply rtc_l; [by apply mv_lstep|done]. Qed.
Lemma mv_lsteps_back s s' : rtc (lstep o w) (mv_lstate s) s' → ∃ s1, s' = mv_lstate s1 ∧ rtc (lstep o w) s s1.
Proof.
  intros Hr. remember (mv_lstate s) as s0 eqn:E. revert s E. induction Hr as [s0|s0 s1 s2 Hs _ IH]; intros s ->.
  - by exists s.
  - apply mv_lstep_back in Hs as (s3 & -> & Hs). destruct (IH s3 eq_refl) as (s4 & -> & Hr). exists s4. split; [done|]. by eapply rtc_l.
Qed.
Lemma mv_add_imports h t p h' t' : add_imports o w h t p h' t' → add_imports o w (H h) t p (H h') t'.
Proof. intros Ha. exact (mv_lsteps _ _ Ha). Qed.
Lemma mv_add_imports_back h t p h' t' : add_imports o w (H h) t p h' t' → ∃ h1, h' = H h1 ∧ add_imports o w h t p h1 t'.
Proof.
  intros Ha. destruct (mv_lsteps_back (LState h t [p]) _ Ha) as ([h1 t1 st1] & E & Hr). injection E as -> -> <-. by exists h1.
Qed.
Lemma mv_load_loop h t pj ps h' t' pj' : load_loop o w h t pj ps h' t' pj' → load_loop o w (H h) t pj ps (H h') t' pj'.
Proof.
  induction 1 as [|h t pj p ps h1 t1 g q h2 t2 pj2 Ha Hg Hq _ IH]; [constructor|].
  apply (LL_cons _ _ _ _ _ _ _ (H h1) t1 (K g) q); [by apply mv_add_imports|by rewrite mv_heap_lookup, Hg|done|done].
Qed.
Lemma mv_load_loop_back h t pj ps h' t' pj' : load_loop o w (H h) t pj ps h' t' pj' → ∃ h1, h' = H h1 ∧ load_loop o w h t pj ps h1 t' pj'.
Proof.
  intros Hl. remember (H h) as h0 eqn:E. revert h E. induction Hl as [h0 t pj|h0 t pj p ps h1 t1 g q h2 t2 pj2 Ha Hg Hq _ IH]; intros h ->.
  - exists h. split; [done|constructor].
  - apply mv_add_imports_back in Ha as (h3 & -> & Ha). destruct (IH h3 eq_refl) as (h4 & -> & Hl). rewrite mv_heap_lookup in Hg.
    destruct (h3 !! p) as [g0|] eqn:E; [|done]. injection Hg as <-. exists h4. split; [done|]. by eapply (LL_cons _ _ _ _ _ _ _ h3 t1 g0 q).
Qed.
(** loading keeps the syntax trees *)
Definition keeps (h h' : pheap) : Prop := ∀ q p', h' !! q = Some p' → ∃ p, h !! q = Some p ∧ p_syntax p' = p_syntax p.
Lemma keeps_refl h : keeps h h. Proof. intros q p E. by exists p. Qed.
Lemma keeps_trans h h1 h2 : keeps h h1 → keeps h1 h2 → keeps h h2.
Proof. intros K1 K2 q p E. destruct (K2 q p E) as (p1 & E1 & S1). destruct (K1 q p1 E1) as (p2 & E2 & S2). exists p2. split; [done|congruence]. Qed.
Lemma lsteps_keep s s' : rtc (lstep o w) s s' → keeps (ls_heap s) (ls_heap s').
Proof.
  induction 1 as [|s s1 s2 Hs _ IH]; [apply keeps_refl|]. eapply keeps_trans; [|exact IH].
  destruct Hs as [|h t p g g' order st Hg Hs Hn Ho]; [apply keeps_refl|]. intros q p'. cbn. rewrite lookup_insert_Some. intros [[<- <-]|[_ E]]; [|by exists p'].
  exists g. split; [done|]. by eapply normalize_syntax.
Qed.
Lemma load_loop_keeps h t pj ps h' t' pj' : load_loop o w h t pj ps h' t' pj' → keeps h h'.
Proof. induction 1 as [|h t pj p ps h1 t1 g q h2 t2 pj2 Ha Hg Hq _ IH]; [apply keeps_refl|]. eapply keeps_trans; [exact (lsteps_keep _ _ Ha)|exact IH]. Qed.
End Load.
Lemma mv_builtin h0 bp o : <[bp := builtin_pkg bp o]> (H h0) = H (<[bp := builtin_pkg bp o]> h0).
Proof. unfold mv_heap. by rewrite fmap_insert. Qed.
Lemma mv_load_packages o w bp h0 roots h all proj : load_packages o w bp h0 roots h all proj → load_packages o w bp (H h0) roots (H h) all proj.
Proof. unfold load_packages. intros Hl. rewrite mv_builtin. by apply mv_load_loop. Qed.
Lemma mv_load_packages_back o w bp h0 roots h' all proj : load_packages o w bp (H h0) roots h' all proj → ∃ h, h' = H h ∧ load_packages o w bp h0 roots h all proj.
Proof. unfold load_packages. rewrite mv_builtin. apply mv_load_loop_back. Qed.
Lemma load_whole o w bp h0 roots h all proj : load_packages o w bp h0 roots h all proj → whole_idents mv h0 → whole_idents mv h.
Proof.
  intros Hl Hw q p f i Hq Hf Hi. destruct (load_loop_keeps _ _ _ _ _ _ _ _ _ Hl q p Hq) as (p0 & Hp & Hs). rewrite Hs in Hf.
  apply lookup_insert_Some in Hp as [[<- <-]|[_ Hp]]; [by apply elem_of_nil in Hf|]. by eapply (Hw q p0 f i).
Qed.
End Move.
