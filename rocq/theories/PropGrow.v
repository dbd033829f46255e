(** C84: adding files and packages changes no document of the files that were there. *)
From Coq Require Import Ascii String.
From stdpp Require Import prelude strings gmap sorting.
From Verif Require Import GoStr Scip GoTypes Ast Packages Symbols Document Lookup Pass1 Pass2 Paths Loader Index
  SpecSymbol SpecDecl SpecLookup SpecOcc SpecIndex P_Symbols P_Pass1 P_Link P_Lookup P_Pass2 P_Occ P_Index P_Move P_Move2 PropDecl PropOcc PropIndex PropDefined PropCross PropSkip PropPart PropEdit.
Open Scope string_scope.
Open Scope list_scope.

(** *** Specification *)
(** P' is P with more files in its packages, and more packages: the packages of P are loaded, with the same modules, and
    those that P indexes are indexed, with their files, whose declarations are what they were. *)
Record grown (P P' : project) : Prop := Grown {
  gr_env : pr_env P' = pr_env P;
  gr_all : ∀ k q p, pr_all P !! k = Some q → pr_heap P !! q = Some p →
    ∃ q' p', pr_all P' !! k = Some q' ∧ pr_heap P' !! q' = Some p' ∧ p_module p' = p_module p;
  gr_pkgs : ∀ p, p ∈ pr_pkgs P → ∃ p', p' ∈ pr_pkgs P' ∧ p_path p' = p_path p ∧ p_module p' = p_module p ∧
    (∀ f, f ∈ p_syntax p → f ∈ p_syntax p') ∧
    ∀ ti ti' f, p_info p = Some ti → p_info p' = Some ti' → f ∈ p_syntax p → same_declarations (pr_fs P) (pr_fs P') ti ti' f }.
(** z is the position of a name, or of the type of a field without name, in a declaration of f *)
Definition place (f : node) (z : Z) : Prop :=
  ∃ d m, d ∈ file_decls f ∧ m ∈ subnodes d ∧ node_pos m = z ∧ ((∃ i, m = NIdent i) ∨ ∃ doc c, NField doc c [] m ∈ subnodes f).
(** go/parser: these are in the file, after its package clause *)
Definition laid_out (P : project) : Prop :=
  ∀ p f name z, p ∈ pr_pkgs P → f ∈ p_syntax p → file_of (pr_fs P) f name → place f z →
    fs_file (pr_fs P) z = Some name ∧ z ≠ id_pos (file_ident f).
(** position z is not in an added file, nor that of a package clause *)
Definition not_added (P P' : project) (z : Z) : Prop :=
  ∀ p' f' name, p' ∈ pr_pkgs P' → f' ∈ p_syntax p' → file_of (pr_fs P') f' name → fs_file (pr_fs P') z = Some name →
    (∃ p, p ∈ pr_pkgs P ∧ p_path p = p_path p' ∧ f' ∈ p_syntax p) ∧ z ≠ id_pos (file_ident f').
(** a package that was loaded before, or is not loaded now *)
Definition not_new (P P' : project) (k : string) : Prop := is_Some (pr_all P' !! k) → is_Some (pr_all P !! k).
(** f, a file of P, refers to nothing that was added *)
Record refers_back (P P' : project) (p p' : gpkg) (ti : tinfo) (f : node) : Prop := RefersBack {
  rb_clause : ti_defs ti (id_ptr (file_ident f)) = None;
  rb_uses : ∀ i o, NIdent i ∈ subnodes f → ti_uses ti (id_ptr i) = Some o → (∀ path, o_kind o ≠ OPkgName path) →
    not_added P P' (o_pos o) ∧ ∀ tp, o_pkg o = Some tp → not_new P P' (tp_path tp);
  rb_packages : ∀ i o path, NIdent i ∈ subnodes f → ti_uses ti (id_ptr i) = Some o → o_kind o = OPkgName path → not_new P P' path;
  rb_imports : ∀ r nm pp s o path, NImportSpec r nm pp s ∈ subnodes f → ti_pkgname_of ti r = Some o → o_kind o = OPkgName path →
    agree (λ a b, p_path b = p_path a ∧ not_new P P' (p_path a)) (imports_of (pr_heap P) p path) (imports_of (pr_heap P') p' path) }.

(** *** Proofs *)
(** where the events of a file are *)
Lemma declared_in_decl f m i : (∃ pp h d nm l, f = NFile pp h d nm l) → m ∈ subnodes f → i ∈ declared_names m → ∃ d, d ∈ file_decls f ∧ m ∈ subnodes d.
Proof.
  intros (pp & h & doc & nm & l & ->) Hm Hi. cbn [subnodes] in Hm. apply elem_of_cons in Hm as [->|Hm]; [by apply elem_of_nil in Hi|].
  apply elem_of_cons in Hm as [->|Hm]; [by apply elem_of_nil in Hi|]. apply elem_of_concat_map in Hm as (d & Hd & Hm). by exists d.
Qed.
Lemma event_place digest ti fs path f e : (∃ pp h d nm l, f = NFile pp h d nm l) → e ∈ file_events digest ti fs path f → place f (e_pos e).
Proof.
  intros Hf He. destruct (package_events_origin digest ti fs (GPkg 0 path "" None [] [f] None None) e) as (f' & Hf' & Ho).
  { unfold package_events. cbn. by rewrite List.app_nil_r. }
  apply elem_of_list_singleton in Hf' as ->. destruct Ho as [(m & Hm & Hi & Ep)|(doc & c & t & Hm & Ht & Ep)].
  - destruct (declared_in_decl f m _ Hf Hm Hi) as (d & Hd & Hmd). exists d, (NIdent (e_ident e)). split; [done|]. split; [|by split; [|left; eexists]].
    eapply subnodes_trans; [exact Hmd|]. by apply declared_name_sub.
  - assert (∃ d, d ∈ file_decls f ∧ NField doc c [] t ∈ subnodes d) as (d & Hd & Hmd).
    { destruct Hf as (pp & h & doc' & nm & l & ->). cbn [subnodes] in Hm. apply elem_of_cons in Hm as [?|Hm]; [done|].
      apply elem_of_cons in Hm as [?|Hm]; [done|]. apply elem_of_concat_map in Hm as (d & Hd & Hm). by exists d. }
    assert (Htd : t ∈ subnodes d). { eapply subnodes_trans; [exact Hmd|]. eapply (subnodes_child _ t); [cbn [node_children]; apply elem_of_app; right; left|apply subnodes_self]. }
    destruct Ep as [->| ->].
    + exists d, (NIdent (e_ident e)). split; [done|]. split; [|by split; [|left; eexists]]. eapply subnodes_trans; [exact Htd|]. by apply type_name_sub.
    + exists d, t. split; [done|]. split; [done|]. split; [done|]. right. by exists doc, c.
Qed.

(** the entries of a table at one position *)
Lemma pset_same t t' z i : t !! z = t' !! z → pset t z i !! z = pset t' z i !! z.
Proof. intros E. unfold pset. rewrite E. destruct (t' !! z) as [j|] eqn:Ej; [destruct (String.eqb _ _)|]; rewrite ?lookup_insert; congruence. Qed.
Lemma foldl_put_at ti env m z evs : ∀ t t' : ptable, t !! z = t' !! z → foldl (put ti env m) t evs !! z = foldl (put ti env m) t' (filter (λ e, e_pos e = z) evs) !! z.
Proof.
  induction evs as [|e l IH]; intros t t' E; [done|]. rewrite filter_cons. cbn [foldl]. destruct (decide (e_pos e = z)) as [Ez|Ez].
  - cbn [foldl]. apply IH. unfold put. rewrite Ez. by apply pset_same.
  - apply IH. unfold put. by rewrite pset_other.
Qed.
Lemma filter_none {A} (Q : A → Prop) `{!∀ x, Decision (Q x)} (l : list A) : (∀ x, x ∈ l → ¬ Q x) → filter Q l = [].
Proof. induction l as [|x l IH]; intros Hall; [done|]. rewrite filter_cons_False by (apply Hall; left). apply IH. intros y Hy. apply Hall. by right. Qed.

Section OneProject.
Context (digest : string → string) (P : project).
Context (Hix : indexable (pr_objs P) (pr_fs P) (pr_heap P) (pr_all P) (pr_proj P) (pr_pkgs P)) (Hlay : laid_out P).
Notation fs := (pr_fs P).
Notation env := (pr_env P).
Lemma og_is_file p f : p ∈ pr_pkgs P → f ∈ p_syntax p → ∃ pp h d nm l, f = NFile pp h d nm l.
Proof.
  intros Hp Hf. destruct (tpj_info _ _ _ _ (ix_typed _ _ _ _ _ _ Hix) p f Hp Hf) as (ti & n & _ & Htf & _). apply (wff_file _ _ _ _ (tf_wf _ _ _ _ _ Htf)).
Qed.
Lemma og_named p f : p ∈ pr_pkgs P → f ∈ p_syntax p → ∃ name, file_of fs f name.
Proof. intros Hp Hf. destruct (tpj_info _ _ _ _ (ix_typed _ _ _ _ _ _ Hix) p f Hp Hf) as (ti & n & _ & _ & _ & H). by exists n. Qed.
(** a file name is that of one file *)
Lemma og_unique p q f f' name : p ∈ pr_pkgs P → f ∈ p_syntax p → q ∈ pr_pkgs P → f' ∈ p_syntax q → file_of fs f name → file_of fs f' name → p = q ∧ f = f'.
Proof.
  intros Hp Hf Hq Hf' N N'. assert ((p, f) ∈ files_in_order (pr_pkgs P)) as [a Ha]%elem_of_list_lookup by by apply files_elem.
  assert ((q, f') ∈ files_in_order (pr_pkgs P)) as [b Hb]%elem_of_list_lookup by by apply files_elem.
  pose proof (tpj_files _ _ _ _ (ix_typed _ _ _ _ _ _ Hix) a b p f q f' name Ha Hb N N') as ->. rewrite Ha in Hb. by injection Hb as -> ->.
Qed.
Lemma og_nodup p : p ∈ pr_pkgs P → NoDup (p_syntax p).
Proof.
  intros Hp. apply elem_of_list_split in Hp as (l1 & l2 & E). apply NoDup_alt. intros i j f Hi Hj.
  assert (X : ∀ i, p_syntax p !! i = Some f → files_in_order (pr_pkgs P) !! (length (files_in_order l1) + i) = Some (p, f)).
  { intros k Hk. unfold files_in_order. rewrite E, List.map_app, concat_app. cbn [map List.concat]. rewrite lookup_app_r by lia.
    replace (_ + k - _) with k by (unfold files_in_order; lia). rewrite lookup_app_l; [by rewrite list_lookup_fmap, Hk|]. rewrite map_length. by apply lookup_lt_Some in Hk. }
  assert (Hp' : p ∈ pr_pkgs P) by (rewrite E; set_solver). destruct (og_named p f Hp' (elem_of_list_lookup_2 _ _ _ Hi)) as [name N].
  pose proof (tpj_files _ _ _ _ (ix_typed _ _ _ _ _ _ Hix) _ _ p f p f name (X i Hi) (X j Hj) N N). lia.
Qed.
Lemma og_clause p f name : p ∈ pr_pkgs P → f ∈ p_syntax p → file_of fs f name → fs_file fs (id_pos (file_ident f)) = Some name.
Proof.
  intros Hp Hf N. apply (ix_idents _ _ _ _ _ _ Hix p f name (file_ident f) Hp Hf N). destruct (og_is_file p f Hp Hf) as (pp & h & d & nm & l & ->). cbn. right. left.
Qed.
(** the recorded positions: that of the first package clause, and places in the files *)
Lemma og_keys p t z : p ∈ pr_pkgs P → pass1_table digest env fs p t → t !! z ≠ None →
  ∃ f name ti m, f ∈ p_syntax p ∧ p_info p = Some ti ∧ p_module p = Some m ∧ file_of fs f name ∧ fs_file fs z = Some name ∧
    (place f z ∧ z ≠ id_pos (file_ident f) ∨ z = id_pos (file_ident f) ∧ i_symbol <$> t !! z = Some (package_symbol m (p_path p))).
Proof.
  intros Hp Ht Hz. unfold pass1_table in Ht. destruct (p_syntax p) as [|f l] eqn:Es; [subst t; by rewrite lookup_empty in Hz|].
  destruct (p_info p) as [ti|] eqn:Ei; [|done]. destruct Ht as (t0 & m & E & Em & ->).
  unfold visit_package_table in E. rewrite (res_fold_put ti env p m) in E by done. injection E as <-.
  assert (K : ∀ y, foldl (put ti env m) (∅ : ptable) (package_events digest ti fs p) !! y ≠ None →
    ∃ x name, x ∈ p_syntax p ∧ file_of fs x name ∧ fs_file fs y = Some name ∧ place x y ∧ y ≠ id_pos (file_ident x)).
  { intros y Hy. apply foldl_put_dom in Hy as [Hy|(e & He & <-)]; [by rewrite lookup_empty in Hy|].
    apply elem_of_concat_map in He as (x & Hx & He). destruct (og_named p x Hp Hx) as [name N]. exists x, name.
    assert (Hpl : place x (e_pos e)) by (eapply event_place; [by eapply og_is_file|exact He]). destruct (Hlay p x name _ Hp Hx N Hpl). done. }
  destruct (decide (z = id_pos (file_ident f))) as [->|Hne].
  - assert (Hf : f ∈ p_syntax p) by (rewrite Es; left). destruct (og_named p f Hp Hf) as [name N].
    exists f, name, ti, m. split; [left|]. split; [done|]. split; [done|]. split; [done|]. split; [by eapply og_clause|]. right. split; [done|].
    rewrite pset_new; [done|]. destruct (foldl _ _ _ !! _) eqn:E0; [|done]. destruct (K (id_pos (file_ident f))) as (x & name' & Hx & N' & Hn & _ & Hc); [congruence|].
    rewrite (og_clause p f name Hp Hf N) in Hn. injection Hn as <-. destruct (og_unique p p f x name Hp Hf Hp Hx N N') as [_ <-]. done.
  - rewrite pset_other in Hz by done. destruct (K z Hz) as (x & name & Hx & N & Hn & Hpl & Hc). rewrite <-Es. exists x, name, ti, m. split_and!; try done. by left.
Qed.
(** what is recorded at a place of a file depends on the file only *)
Lemma og_table p ti m t f name z : p ∈ pr_pkgs P → p_info p = Some ti → p_module p = Some m → pass1_table digest env fs p t → f ∈ p_syntax p → file_of fs f name →
  fs_file fs z = Some name → z ≠ id_pos (file_ident f) → t !! z = foldl (put ti env m) (∅ : ptable) (file_events digest ti fs (p_path p) f) !! z.
Proof.
  intros Hp Ei Em Ht Hf N Hz Hc. unfold pass1_table in Ht. destruct (p_syntax p) as [|f0 l0] eqn:Es; [by apply elem_of_nil in Hf|]. rewrite Ei in Ht.
  destruct Ht as (t0 & m' & E & Em' & ->). assert (m' = m) as -> by congruence. rewrite <-Es in Hf.
  assert (Hf0 : f0 ∈ p_syntax p) by (rewrite Es; left). destruct (og_named p f0 Hp Hf0) as [n0 N0].
  rewrite pset_other. 2:{ intros Ez. pose proof (og_clause p f0 n0 Hp Hf0 N0) as Hz0. rewrite Ez, Hz in Hz0. injection Hz0 as ->. by destruct (og_unique p p f f0 n0 Hp Hf Hp Hf0 N N0) as [_ ->]. }
  unfold visit_package_table in E. rewrite (res_fold_put ti env p m) in E by done. injection E as <-.
  rewrite (foldl_put_at ti env m z (package_events _ _ _ _) ∅ ∅), (foldl_put_at ti env m z (file_events _ _ _ _ _) ∅ ∅) by done. f_equal. f_equal.
  unfold package_events. pose proof (og_nodup p Hp) as Hnd. apply elem_of_list_split in Hf as Hf'. destruct Hf' as (l1 & l2 & El). rewrite El in Hnd |- *.
  rewrite List.map_app, concat_app. cbn [map List.concat]. rewrite !filter_app.
  assert (X : ∀ l, (∀ x, x ∈ l → x ∈ p_syntax p ∧ x ≠ f) → filter (λ e, e_pos e = z) (List.concat (map (file_events digest ti fs (p_path p)) l)) = []).
  { intros l Hl. apply filter_none. intros e (x & Hx & He)%elem_of_concat_map Ez. destruct (Hl x Hx) as [Hxp Hne]. destruct (og_named p x Hp Hxp) as [nx Nx].
    assert (Hpl : place x (e_pos e)) by (eapply event_place; [by eapply og_is_file|exact He]). destruct (Hlay p x nx _ Hp Hxp Nx Hpl) as [Hzx _].
    rewrite Ez, Hz in Hzx. injection Hzx as <-. apply Hne. symmetry. by apply (og_unique p p f x name). }
  apply NoDup_app in Hnd as (Hn1 & Hn2 & Hn3). apply NoDup_cons in Hn3 as [Hn3 _].
  rewrite (X l1), (X l2), List.app_nil_r; [done| |].
  - intros x Hx. split; [rewrite El; set_solver|]. intros ->. done.
  - intros x Hx. split; [rewrite El; set_solver|]. intros ->. apply (Hn2 f Hx). left.
Qed.
End OneProject.

(** one file in two projects *)
Lemma same_events digest ti ti' fs fs' path f : same_declarations fs fs' ti ti' f → file_events digest ti' fs' path f = file_events digest ti fs path f.
Proof.
  intros Hsd. pose proof (same_settled ti ti' fs fs' f Hsd) as Hs. unfold file_events. rewrite (ed_tv digest ti ti' fs fs') by done. f_equal.
  destruct f as [| | | | | | | | | | | | | | | | | | | | | | |pp h doc nm l|]; try done. cbn [file_decls]. f_equal. apply map_ext_in. intros d Hd%elem_of_list_In.
  assert (Hd' : Forall (settled ti ti' fs fs') (subnodes d)).
  { rewrite !Forall_forall in *. intros x Hx. apply Hs. eapply subnodes_child; [|exact Hx]. cbn. right. done. }
  destruct d as [| | | | | | | | | | | | | | | | | | | | |p k dd ll|dd p e r nn t b| |]; try done. cbn [decl_events]. destruct k; try done; by rewrite (ed_vv digest ti ti' fs fs').
Qed.
Lemma event_ident digest ti fs path f e : e ∈ file_events digest ti fs path f → NIdent (e_ident e) ∈ subnodes f.
Proof.
  intros He. destruct (package_events_origin digest ti fs (GPkg 0 path "" None [] [f] None None) e) as (f' & Hf' & Ho).
  { unfold package_events. cbn. by rewrite List.app_nil_r. }
  apply elem_of_list_singleton in Hf' as ->. by apply origin_sub.
Qed.
Lemma same_puts digest ti ti' fs fs' env m path f : same_declarations fs fs' ti ti' f → ∀ t : ptable,
  foldl (put ti' env m) t (file_events digest ti' fs' path f) = foldl (put ti env m) t (file_events digest ti fs path f).
Proof.
  intros Hsd. rewrite (same_events digest ti ti' fs fs') by done.
  assert (Hi : ∀ e, e ∈ file_events digest ti fs path f → NIdent (e_ident e) ∈ subnodes f) by (intros e; apply event_ident).
  revert Hi. induction (file_events digest ti fs path f) as [|e l IH]; intros Hi t; [done|]. cbn [foldl]. rewrite IH by (intros x Hx; apply Hi; by right). f_equal.
  unfold put. f_equal. unfold event_info, new_symbol_info. pose proof (Hi e ltac:(left)) as He. rewrite (sd_defs _ _ _ _ _ Hsd _ He).
  f_equal. destruct (ti_defs ti (id_ptr (e_ident e))) as [o|] eqn:Eo; [|done]. by rewrite (sd_sig _ _ _ _ _ Hsd _ _ He Eo).
Qed.

(** the tables of the packages in the final state *)
Lemma final_table digest X gx0 gx p : tables_ok digest (pr_env X) (pr_fs X) (pr_heap X) (pr_all X) (pr_pkgs X) gx0 → same_tables gx0 gx → p ∈ pr_pkgs X →
  ∃ t0 t, pass1_table digest (pr_env X) (pr_fs X) p t0 ∧ g_symbols gx !! p_path p = Some (p, t) ∧ ∀ pos, agree same_info (t0 !! pos) (t !! pos).
Proof.
  intros Ht Hs Hp. destruct (tk_proj _ _ _ _ _ _ _ Ht p Hp) as (t0 & E0 & H0). destruct (same_tables_lookup _ _ _ _ _ Hs E0) as (t & E & H). by exists t0, t.
Qed.
Lemma not_indexed digest X gx0 gx c z : tables_ok digest (pr_env X) (pr_fs X) (pr_heap X) (pr_all X) (pr_pkgs X) gx0 → same_tables gx0 gx →
  c ∉ map p_path (pr_pkgs X) → unrecorded gx c z.
Proof.
  intros Ht Hs Hc i (p & t & E & Ei). destruct (g_symbols gx0 !! c) as [[p0 t0]|] eqn:E0.
  - pose proof (tk_deps _ _ _ _ _ _ _ Ht _ _ _ Hc E0) as ->. destruct (same_tables_lookup _ _ _ _ _ Hs E0) as (t1 & E1 & H). specialize (H z). rewrite lookup_empty in H.
    rewrite E in E1. injection E1 as _ <-. by rewrite Ei in H.
  - destruct Hs as [_ H]. specialize (H c). rewrite E0, E in H. done.
Qed.

Section Grow.
Context (digest : string → string) (P P' : project) (Hgr : grown P P') (root version version' : string).
Context (Hix : indexable (pr_objs P) (pr_fs P) (pr_heap P) (pr_all P) (pr_proj P) (pr_pkgs P)) (Hlay : laid_out P).
Context (Hix' : indexable (pr_objs P') (pr_fs P') (pr_heap P') (pr_all P') (pr_proj P') (pr_pkgs P')) (Hlay' : laid_out P').
Context (g0 g g0' g' : global).
Context (Ht : tables_ok digest (pr_env P) (pr_fs P) (pr_heap P) (pr_all P) (pr_pkgs P) g0) (Hs : same_tables g0 g).
Context (Ht' : tables_ok digest (pr_env P') (pr_fs P') (pr_heap P') (pr_all P') (pr_pkgs P') g0') (Hs' : same_tables g0' g').

Lemma gw_pkg p p' : p ∈ pr_pkgs P → p' ∈ pr_pkgs P' → p_path p' = p_path p →
  p_module p' = p_module p ∧ (∀ f, f ∈ p_syntax p → f ∈ p_syntax p') ∧
  ∀ ti ti' f, p_info p = Some ti → p_info p' = Some ti' → f ∈ p_syntax p → same_declarations (pr_fs P) (pr_fs P') ti ti' f.
Proof.
  intros Hp Hp' E. destruct (gr_pkgs _ _ Hgr p Hp) as (p2 & Hp2 & E2 & H). assert (p2 = p') as ->; [|done].
  eapply (same_path P'); [apply (ix_order _ _ _ _ _ _ Hix')|done|done|congruence].
Qed.
Lemma gw_info p f : p ∈ pr_pkgs P → f ∈ p_syntax p → ∃ ti, p_info p = Some ti.
Proof. intros Hp Hf. destruct (tpj_info _ _ _ _ (ix_typed _ _ _ _ _ _ Hix) p f Hp Hf) as (ti & n & H & _). eauto. Qed.
Lemma gw_info' p f : p ∈ pr_pkgs P' → f ∈ p_syntax p → ∃ ti, p_info p = Some ti.
Proof. intros Hp Hf. destruct (tpj_info _ _ _ _ (ix_typed _ _ _ _ _ _ Hix') p f Hp Hf) as (ti & n & H & _). eauto. Qed.
Lemma gw_decls p p' f : p ∈ pr_pkgs P → p' ∈ pr_pkgs P' → p_path p' = p_path p → f ∈ p_syntax p →
  ∃ ti ti', p_info p = Some ti ∧ p_info p' = Some ti' ∧ f ∈ p_syntax p' ∧ same_declarations (pr_fs P) (pr_fs P') ti ti' f.
Proof.
  intros Hp Hp' E Hf. destruct (gw_pkg p p' Hp Hp' E) as (_ & H1 & H2). destruct (gw_info p f Hp Hf) as [ti Hti]. destruct (gw_info' p' f Hp' (H1 f Hf)) as [ti' Hti'].
  exists ti, ti'. split_and!; auto.
Qed.
(** a file keeps its name *)
Lemma gw_name p p' f name : p ∈ pr_pkgs P → p' ∈ pr_pkgs P' → p_path p' = p_path p → f ∈ p_syntax p → file_of (pr_fs P) f name → file_of (pr_fs P') f name.
Proof.
  intros Hp Hp' E Hf N. destruct (gw_decls p p' f Hp Hp' E Hf) as (ti & ti' & _ & _ & _ & Hsd). destruct (sd_file _ _ _ _ _ Hsd f (subnodes_self f)) as [H _].
  destruct (og_is_file P Hix p f Hp Hf) as (pp & h & doc & nm & l & ->). unfold file_of in *. cbn in *. congruence.
Qed.
Lemma gw_place p p' f z : p ∈ pr_pkgs P → p' ∈ pr_pkgs P' → p_path p' = p_path p → f ∈ p_syntax p → place f z → fs_file (pr_fs P') z = fs_file (pr_fs P) z.
Proof.
  intros Hp Hp' E Hf (d & m & Hd & Hm & <- & _). destruct (gw_decls p p' f Hp Hp' E Hf) as (ti & ti' & _ & _ & _ & Hsd).
  apply (sd_file _ _ _ _ _ Hsd m). destruct (og_is_file P Hix p f Hp Hf) as (pp & h & doc & nm & l & ->). eapply subnodes_child; [|exact Hm]. cbn. by right.
Qed.
(** what is recorded at a place of a file that was there *)
Lemma gw_at p p' f z t t' : p ∈ pr_pkgs P → p' ∈ pr_pkgs P' → p_path p' = p_path p → f ∈ p_syntax p → place f z →
  pass1_table digest (pr_env P) (pr_fs P) p t → pass1_table digest (pr_env P') (pr_fs P') p' t' → t' !! z = t !! z.
Proof.
  intros Hp Hp' E Hf Hpl Hpt Hpt'. destruct (gw_decls p p' f Hp Hp' E Hf) as (ti & ti' & Hti & Hti' & Hf' & Hsd).
  destruct (og_named P Hix p f Hp Hf) as [name N]. pose proof (gw_name p p' f name Hp Hp' E Hf N) as N'.
  destruct (Hlay p f name z Hp Hf N Hpl) as [Hz Hc]. destruct (Hlay' p' f name z Hp' Hf' N' Hpl) as [Hz' _].
  assert (∃ m, p_module p = Some m) as [m Em].
  { unfold pass1_table in Hpt. destruct (p_syntax p); [by apply elem_of_nil in Hf|]. rewrite Hti in Hpt. destruct Hpt as (? & m & _ & Em & _). by exists m. }
  destruct (gw_pkg p p' Hp Hp' E) as (Em' & _). rewrite Em in Em'.
  rewrite (og_table digest P Hix Hlay p ti m t f name z) by done. rewrite (og_table digest P' Hix' Hlay' p' ti' m t' f name z) by done.
  rewrite (gr_env _ _ Hgr), E. by rewrite (same_puts digest ti ti' (pr_fs P) (pr_fs P')).
Qed.
Lemma gw_tables p p' z t t' : p ∈ pr_pkgs P → p' ∈ pr_pkgs P' → p_path p' = p_path p → not_added P P' z →
  pass1_table digest (pr_env P) (pr_fs P) p t → pass1_table digest (pr_env P') (pr_fs P') p' t' → t' !! z = t !! z.
Proof.
  intros Hp Hp' E Hna Hpt Hpt'. destruct (decide (t !! z = None)) as [Ez|Ez].
  - rewrite Ez. destruct (decide (t' !! z = None)) as [Ez'|Ez']; [done|].
    destruct (og_keys digest P' Hix' Hlay' p' t' z Hp' Hpt' Ez') as (f & name & ti & m & Hf & _ & _ & N & Hz & Hor).
    destruct (Hna p' f name Hp' Hf N Hz) as [(p2 & Hp2 & E2 & Hf2) Hc]. destruct Hor as [[Hpl _]|[-> _]]; [|done].
    assert (p2 = p) as ->. { eapply (same_path P); [apply (ix_order _ _ _ _ _ _ Hix)|done|done|congruence]. }
    rewrite <-Ez. by eapply (gw_at p p' f).
  - destruct (og_keys digest P Hix Hlay p t z Hp Hpt Ez) as (f & name & ti & m & Hf & _ & _ & N & Hz & Hor).
    destruct Hor as [[Hpl _]|[-> _]]; [by eapply (gw_at p p' f)|]. exfalso. destruct (gw_decls p p' f Hp Hp' E Hf) as (_ & _ & _ & _ & Hf' & _).
    pose proof (gw_name p p' f name Hp Hp' E Hf N) as N'. by destruct (Hna p' f name Hp' Hf' N' (og_clause P' Hix' p' f name Hp' Hf' N')) as [_ Hc].
Qed.
Lemma gw_recorded c z : not_added P P' z → (∃ i i', recorded g c z i ∧ recorded g' c z i' ∧ same_info i i') ∨ unrecorded g c z ∧ unrecorded g' c z.
Proof.
  intros Hna. destruct (decide (c ∈ map p_path (pr_pkgs P))) as [Hc|Hc].
  - apply elem_of_list_fmap in Hc as (p & -> & Hp). destruct (gr_pkgs _ _ Hgr p Hp) as (p' & Hp' & E & _).
    destruct (final_table digest P g0 g p Ht Hs Hp) as (t0 & t & H0 & Hg & Ha). destruct (final_table digest P' g0' g' p' Ht' Hs' Hp') as (t0' & t' & H0' & Hg' & Ha').
    rewrite E in Hg'. specialize (Ha z). specialize (Ha' z). rewrite (gw_tables p p' z t0 t0' Hp Hp' E Hna H0 H0') in Ha'. unfold agree in Ha, Ha'.
    destruct (t0 !! z) as [i0|], (t !! z) as [i|] eqn:Ei, (t' !! z) as [i'|] eqn:Ei'; try done.
    + left. exists i, i'. split; [by exists p, t|]. split; [by exists p', t'|]. destruct Ha as (?&?&?&?&?&?), Ha' as (?&?&?&?&?&?). split_and!; congruence.
    + right. split; intros j (pp & tt & E1 & E2); congruence.
  - right. split; [exact (not_indexed digest P g0 g c z Ht Hs Hc)|]. destruct (decide (c ∈ map p_path (pr_pkgs P'))) as [Hc'|Hc']; [|exact (not_indexed digest P' g0' g' c z Ht' Hs' Hc')].
    apply elem_of_list_fmap in Hc' as (p' & -> & Hp'). intros i (pp & tt & E1 & E2).
    destruct (final_table digest P' g0' g' p' Ht' Hs' Hp') as (t0' & t' & H0' & Hg' & Ha'). rewrite Hg' in E1. injection E1 as -> ->.
    specialize (Ha' z). rewrite E2 in Ha'. destruct (og_keys digest P' Hix' Hlay' pp t0' z Hp' H0') as (f & name & ti & m & Hf & _ & _ & N & Hz & _).
    { intros E0. by rewrite E0 in Ha'. }
    destruct (Hna pp f name Hp' Hf N Hz) as [(p2 & Hp2 & E2' & _) _]. apply Hc. rewrite <-E2'. by apply elem_of_list_fmap_1.
Qed.
Lemma gw_loaded k : is_Some (pr_all P !! k) → ∃ p p' t t' m, g_symbols g !! k = Some (p, t) ∧ g_symbols g' !! k = Some (p', t') ∧ p_module p = Some m ∧ p_module p' = Some m.
Proof.
  intros [q Eq]. pose proof (loaded_symbols digest P g0 g k Hix Ht Hs) as H. rewrite Eq in H. destruct H as (p & p1 & m & t & Hh & Em & Eg & Em1).
  destruct (gr_all _ _ Hgr k q p Eq Hh) as (q' & p' & Eq' & Hh' & Em'). pose proof (loaded_symbols digest P' g0' g' k Hix' Ht' Hs') as H. rewrite Eq' in H.
  destruct H as (p2 & p3 & m' & t' & Hh2 & Em2 & Eg' & Em3). assert (p2 = p') as -> by congruence. exists p1, p3, t, t', m. split_and!; try done. congruence.
Qed.
Lemma gw_syms k : not_new P P' k → g_pkgsyms g' !! k = g_pkgsyms g !! k.
Proof.
  intros Hn. rewrite <-(proj1 Hs), <-(proj1 Hs'). destruct (pr_all P !! k) as [q|] eqn:Eq.
  - destruct (ix_loaded _ _ _ _ _ _ Hix) as (Hka & _). destruct (Hka _ _ Eq) as (p & m & Hh & _ & Hm). destruct (gr_all _ _ Hgr k q p Eq Hh) as (q' & p' & Eq' & Hh' & Em').
    rewrite (tk_syms _ _ _ _ _ _ _ Ht _ _ _ _ Eq Hh Hm). eapply tk_syms; [exact Ht'|exact Eq'|exact Hh'|congruence].
  - rewrite (tk_nosym _ _ _ _ _ _ _ Ht _ Eq). eapply tk_nosym; [exact Ht'|]. destruct (pr_all P' !! k) as [q|] eqn:Eq'; [|done]. destruct (Hn (ltac:(by exists q))). congruence.
Qed.
Lemma gw_resolves o r : not_added P P' (o_pos o) → (∀ tp, o_pkg o = Some tp → not_new P P' (tp_path tp)) →
  resolves (pr_env P) root version g o r → ∃ r', resolves (pr_env P') root version' g' o r' ∧ same_result r r'.
Proof.
  intros Hna Hnn Hr. rewrite (gr_env _ _ Hgr).
  assert (HR : ∀ c i, recorded g c (o_pos o) i → ∃ i', recorded g' c (o_pos o) i' ∧ same_info i i').
  { intros c i Hi. destruct (gw_recorded c (o_pos o) Hna) as [(a & b & Ha & Hb & Hab)|[Hu _]]; [|by destruct (Hu i)].
    exists b. split; [done|]. destruct Hi as (? & ? & E1 & E2), Ha as (? & ? & E3 & E4). assert (i = a) as -> by congruence. done. }
  assert (HU : ∀ c, unrecorded g c (o_pos o) → unrecorded g' c (o_pos o)).
  { intros c Hu. destruct (gw_recorded c (o_pos o) Hna) as [(a & b & Ha & _)|[_ Hu']]; [by destruct (Hu a)|done]. }
  destruct Hr as [H|H|tp H1 H2|tp i H1 H2 H3 H4 H5|tp i H1 H2 H3 H4 H5 H6|tp i H1 H2 H3 H4 H5 H6 H7|tp p t H1 H2 H3 H4 H5 H6 H7 H8 H9|tp H1 H2 H3 H4 H5 H6 H7 H8].
  - exists Skip. split; [by apply rs_label|done].
  - exists Skip. split; [by apply rs_universe|done].
  - exists Skip. split; [by eapply rs_unsafe|done].
  - destruct (HR _ i H5) as (i' & Hi' & Hii). exists (Found i'). split; [by eapply rs_own|done].
  - destruct (HR _ i H6) as (i' & Hi' & Hii). exists (Found i'). split; [|done]. eapply rs_test; try done. by apply HU.
  - destruct (HR _ i H7) as (i' & Hi' & Hii). exists (Found i'). split; [|done]. eapply rs_variant; try done; by apply HU.
  - assert (Hl : is_Some (pr_all P !! tp_path tp)).
    { pose proof (loaded_symbols digest P g0 g (tp_path tp) Hix Ht Hs) as H. destruct (pr_all P !! tp_path tp) as [q|]; [by exists q|congruence]. }
    destruct (gw_loaded _ Hl) as (p1 & p' & t1 & t' & m & E1 & E' & Em & Em'). assert (p1 = p) as -> by congruence.
    rewrite (composed_ext _ root version root version' p p' m o Em Em') in H9 |- *.
    eexists. split; [eapply rs_composed; try done; by apply HU|by split_and!].
  - exists LookupError. split; [|done]. eapply rs_error; try done; [by apply HU..|].
    intros p' t' E'. assert (Hl' : is_Some (pr_all P' !! tp_path tp)).
    { pose proof (loaded_symbols digest P' g0' g' (tp_path tp) Hix' Ht' Hs') as H. destruct (pr_all P' !! tp_path tp) as [q|]; [by exists q|congruence]. }
    destruct (gw_loaded _ (Hnn tp H3 Hl')) as (p1 & p2 & t1 & t2 & m & E1 & E2 & Em & Em'). assert (p2 = p') as -> by congruence.
    rewrite <-(composed_ext _ root version root version' p1 p' m o Em Em'). by eapply H8.
Qed.
Lemma gw_lk o : go_object (pr_objs P) o → go_object (pr_objs P') o → not_added P P' (o_pos o) → (∀ tp, o_pkg o = Some tp → not_new P P' (tp_path tp)) →
  same_result (lk (pr_env P) root version g o) (lk (pr_env P') root version' g' o).
Proof.
  intros Ho Ho' Hna Hnn. destruct (answer_history (pr_env P) (pr_objs P) g root version [] o) as (k & r & _ & _ & E); [constructor|done|].
  assert (R : resolves (pr_env P) root version g o (lk (pr_env P) root version g o)).
  { apply (answer_resolves (pr_env P) (pr_objs P) g root version o _ Ho). unfold lk. by rewrite E. }
  destruct (gw_resolves _ _ Hna Hnn R) as (r' & R' & Hr). apply (answer_resolves (pr_env P') (pr_objs P') g' root version' o _ Ho') in R'.
  unfold lk at 2. by rewrite R'.
Qed.

(** one file that was there *)
Context (p p' : gpkg) (Hp : p ∈ pr_pkgs P) (Hp' : p' ∈ pr_pkgs P') (Epath : p_path p' = p_path p) (ti ti' : tinfo) (Hti : p_info p = Some ti) (Hti' : p_info p' = Some ti').
Context (tbl tbl' : ptable) (Hg : g_symbols g !! p_path p = Some (p, tbl)) (Hg' : g_symbols g' !! p_path p' = Some (p', tbl')).
Context (f : node) (Hf : f ∈ p_syntax p) (Hf' : f ∈ p_syntax p') (Hut : untouched (pr_fs P) (pr_fs P') ti ti' f) (Hrb : refers_back P P' p p' ti f).
Notation inside n := (n ∈ subnodes f) (only parsing).
Lemma gf_table pos : not_added P P' pos → agree same_info (tbl !! pos) (tbl' !! pos).
Proof.
  intros Hna. destruct (gw_recorded (p_path p) pos Hna) as [(i & i' & (a & ta & E1 & E2) & (b & tb & E3 & E4) & H)|[H H']].
  - rewrite Epath in Hg'. rewrite Hg in E1. injection E1 as <- <-. rewrite Hg' in E3. injection E3 as <- <-. by rewrite E2, E4.
  - rewrite Epath in Hg'. destruct (tbl !! pos) as [i|] eqn:E; [by destruct (H i); exists p, tbl|]. destruct (tbl' !! pos) as [i|] eqn:E'; [by destruct (H' i); exists p', tbl'|done].
Qed.
Lemma gf_registered pos : not_added P P' pos → agree same_info (registered g p tbl pos) (registered g' p' tbl' pos).
Proof. intros Hna. unfold registered. rewrite Hg, Hg'. pose proof (gf_table pos Hna) as H. destruct (tbl !! pos), (tbl' !! pos); done. Qed.
Lemma gf_pos m z : inside m → z ∈ points m → fs_position (pr_fs P') z = fs_position (pr_fs P) z.
Proof. apply (ut_points _ _ _ _ _ Hut). Qed.
Lemma gf_span i : inside (NIdent i) → ident_span (pr_fs P') i = ident_span (pr_fs P) i.
Proof. intros Hi. unfold ident_span. rewrite !(gf_pos (NIdent i)); [done|done|by right; left|done|by left]. Qed.
Lemma gf_names i : inside (NIdent i) → names_package ti' i = names_package ti i.
Proof. intros Hi. unfold names_package. by rewrite (ut_uses _ _ _ _ _ Hut i Hi). Qed.
Lemma gf_named i o path : inside (NIdent i) → names_package ti i = Some (o, path) → g_pkgsyms g' !! path = g_pkgsyms g !! path.
Proof.
  intros Hi Hn. apply gw_syms. unfold names_package in Hn. destruct (ti_uses ti (id_ptr i)) as [x|] eqn:Eu; [|done].
  destruct (o_kind x) eqn:Ek; try done. injection Hn as <- <-. by eapply (rb_packages _ _ _ _ _ _ Hrb).
Qed.
Lemma gf_hidden par : (∀ n, par = Some n → inside n) → hidden g' ti' par = hidden g ti par.
Proof.
  unfold hidden. destruct par as [par|]; [|done]. intros Hin. specialize (Hin par eq_refl). destruct par; try done.
  match goal with |- context [match ?x with NIdent _ => _ | _ => _ end] => destruct x; try done end.
  assert (Hi : inside (NIdent i)). { eapply subnodes_trans; [exact Hin|]. eapply subnodes_child; [|apply subnodes_self]. left. }
  rewrite gf_names by done. destruct (names_package ti i) as [[o path]|] eqn:E; [|done]. by rewrite (gf_named i o path).
Qed.
Lemma gf_switch i : inside (NIdent i) → switch_object ti' i = switch_object ti i.
Proof. intros Hi. change (case_at ti' (id_pos i) = case_at ti (id_pos i)). unfold case_at. by rewrite !find_filter, (ut_case _ _ _ _ _ Hut i Hi). Qed.
Lemma gf_defs i : inside (NIdent i) → ti_defs ti' (id_ptr i) = ti_defs ti (id_ptr i).
Proof. apply (sd_defs _ _ _ _ _ (ut_decls _ _ _ _ _ Hut)). Qed.
Lemma gf_name name : file_of (pr_fs P) f name → file_of (pr_fs P') f name.
Proof. exact (gw_name p p' f name Hp Hp' Epath Hf). Qed.
(** a name that f defines was not added *)
Lemma gf_def i d : inside (NIdent i) → ti_defs ti (id_ptr i) = Some d → not_added P P' (o_pos d).
Proof.
  intros Hi Hd q f' name' Hq Hf2 N' Hz. destruct (tpj_info _ _ _ _ (ix_typed _ _ _ _ _ _ Hix) p f Hp Hf) as (tj & name & Hj & Htf & [Hdi Hnd] & N).
  assert (tj = ti) as -> by congruence. rewrite (Hdi i d Hi Hd) in Hz |- *.
  pose proof (gf_name name N) as N2. rewrite (ix_idents _ _ _ _ _ _ Hix' p' f name i Hp' Hf' N2 Hi) in Hz. injection Hz as <-.
  destruct (og_unique P' Hix' q p' f' f name Hq Hf2 Hp' Hf' N' N2) as [-> ->]. split; [by exists p|]. intros Ei.
  assert (Hc : inside (NIdent (file_ident f))). { destruct (og_is_file P Hix p f Hp Hf) as (pp & h & doc & nm & l & ->). cbn. right. left. }
  assert (i = file_ident f) as ->; [|by rewrite (rb_clause _ _ _ _ _ _ Hrb) in Hd].
  apply elem_of_node_idents in Hi, Hc. apply elem_of_list_lookup in Hi as [a Ha], Hc as [b Hb].
  assert (a = b) as ->; [|congruence]. eapply NoDup_lookup; [exact Hnd| |]; [rewrite list_lookup_fmap, Ha; reflexivity|rewrite list_lookup_fmap, Hb; cbn; congruence].
Qed.
Lemma gf_local_def e : at_node f e → local_def g' p' ti' tbl' e = local_def g p ti tbl e.
Proof.
  intros [Hi Hpar]. unfold local_def, plain_ident. destruct e as [par n]. cbn in Hi, Hpar. destruct n; try done. rewrite (gf_hidden par Hpar).
  destruct (hidden g ti par); [done|]. rewrite (gf_names i Hi). destruct (names_package ti i); [done|]. destruct (String.eqb _ _); [done|].
  rewrite (gf_switch i Hi). destruct (switch_object ti i); [done|]. rewrite (gf_defs i Hi). destruct (ti_defs ti (id_ptr i)) as [d|] eqn:Ed; [|done].
  pose proof (gf_registered (o_pos d) (gf_def i d Hi Ed)) as H. unfold agree in H. destruct (registered g p tbl (o_pos d)), (registered g' p' tbl' (o_pos d)); done.
Qed.
Lemma gf_local_defs : local_defs g' p' ti' tbl' f = local_defs g p ti tbl f.
Proof.
  unfold local_defs. assert (Hin : ∀ e, e ∈ file_nodes f → at_node f e) by (exact (ef_nodes_in P Hix p Hp f Hf)). revert Hin.
  induction (file_nodes f) as [|e l IH]; intros Hin; [done|]. cbn. rewrite (gf_local_def e) by (apply Hin; left). rewrite IH; [done|]. intros x Hx. apply Hin. by right.
Qed.
Lemma gf_imports ptr nm pp s : inside (NImportSpec ptr nm pp s) →
  import_refs g' (pr_fs P') ti' (imports_of (pr_heap P') p') ptr nm pp = import_refs g (pr_fs P) ti (imports_of (pr_heap P) p) ptr nm pp.
Proof.
  intros Hi. unfold import_refs. rewrite (ut_imports _ _ _ _ _ Hut _ _ _ _ Hi). destruct (ti_pkgname_of ti ptr) as [o|] eqn:Eo; [|done]. destruct (o_kind o) eqn:Ek; try done.
  pose proof (rb_imports _ _ _ _ _ _ Hrb _ _ _ _ _ _ Hi Eo Ek) as H. unfold agree in H. destruct (imports_of (pr_heap P) p imported_path) as [a|], (imports_of (pr_heap P') p' imported_path) as [b|]; try done.
  destruct H as [-> Hn]. rewrite (gw_syms _ Hn). destruct (g_pkgsyms g !! p_path a); [|done]. rewrite (gf_pos _ pp Hi) by left.
  destruct nm as [i|]; [|done]. rewrite (gf_pos (NIdent i) (id_pos i)); [done| |left].
  eapply subnodes_trans; [exact Hi|]. eapply subnodes_child; [|apply subnodes_self]. left.
Qed.
Lemma gf_def_occs n par i : inside (NIdent i) → (∀ m, par = Some m → inside m) → def_occs g' (pr_fs P') p' ti' tbl' n par i = def_occs g (pr_fs P) p ti tbl n par i.
Proof.
  intros Hi Hpar. unfold def_occs. rewrite (gf_defs i Hi), (gf_span i Hi). destruct (ti_defs ti (id_ptr i)) as [d|] eqn:Ed; [|done].
  assert (Ee : enclosing (pr_fs P') par i = enclosing (pr_fs P) par i).
  { unfold enclosing. destruct par as [m|]; [|done]. specialize (Hpar m eq_refl). destruct m; try done.
    rewrite !(gf_pos _ _ Hpar); [done|by right; left|by left]. }
  rewrite Ee. pose proof (gf_registered (o_pos d) (gf_def i d Hi Ed)) as H. unfold agree in H. destruct (registered g p tbl (o_pos d)), (registered g' p' tbl' (o_pos d)); try done.
  destruct H as (-> & -> & _). done.
Qed.
Lemma gf_use_occs known i : inside (NIdent i) → names_package ti i = None →
  use_occs (pr_fs P') ti' (lk (pr_env P') root version' g') known i = use_occs (pr_fs P) ti (lk (pr_env P) root version g) known i.
Proof.
  intros Hi Hn. unfold use_occs. rewrite (gf_span i Hi), (ut_uses _ _ _ _ _ Hut i Hi). destruct (ti_uses ti (id_ptr i)) as [o|] eqn:Eu; [|done]. destruct (local_symbol _ _); [done|].
  assert (Hk : ∀ path, o_kind o ≠ OPkgName path). { intros path Ek. unfold names_package in Hn. by rewrite Eu, Ek in Hn. }
  destruct (tpj_info _ _ _ _ (ix_typed _ _ _ _ _ _ Hix) p f Hp Hf) as (tj & n & Hj & Htf & _). assert (tj = ti) as -> by congruence. clear Hj.
  destruct (tpj_info _ _ _ _ (ix_typed _ _ _ _ _ _ Hix') p' f Hp' Hf') as (tj & n' & Hj & Htf' & _). assert (tj = ti') as -> by congruence. clear Hj.
  assert (Eu' : ti_uses ti' (id_ptr i) = Some o) by (by rewrite (ut_uses _ _ _ _ _ Hut i Hi)).
  destruct (rb_uses _ _ _ _ _ _ Hrb i o Hi Eu Hk) as [Hna Hnn].
  pose proof (gw_lk o (tf_uses _ _ _ _ _ Htf _ _ Eu Hk) (tf_uses _ _ _ _ _ Htf' _ _ Eu' Hk) Hna Hnn) as Hr.
  destruct (lk (pr_env P) root version g o), (lk (pr_env P') root version' g' o); try done. destruct Hr as (-> & -> & _). done.
Qed.
Lemma gf_node before e : at_node f e →
  node_occs g' (pr_fs P') p' ti' tbl' (imports_of (pr_heap P') p') (lk (pr_env P') root version' g') before e =
  node_occs g (pr_fs P) p ti tbl (imports_of (pr_heap P) p) (lk (pr_env P) root version g) before e.
Proof.
  intros He. pose proof (gf_local_def e He) as Hl. destruct e as [par n]. destruct He as [Hi Hpar]. cbn in Hi, Hpar. destruct n; try done.
  - cbn [node_occs]. rewrite (gf_hidden par Hpar), (gf_names i Hi), (gf_span i Hi). destruct (hidden g ti par); [done|].
    destruct (names_package ti i) as [[o path]|] eqn:En; [by rewrite (gf_named i o path)|].
    destruct (String.eqb _ _); [done|]. rewrite (gf_switch i Hi). destruct (switch_object ti i); [done|].
    by rewrite (gf_def_occs _ par i Hi Hpar), Hl, gf_use_occs.
  - cbn [node_occs]. by eapply gf_imports.
Qed.
Lemma gf_nodes l : (∀ e, e ∈ l → at_node f e) → ∀ before,
  nodes_occs g' (pr_fs P') p' ti' tbl' (imports_of (pr_heap P') p') (lk (pr_env P') root version' g') before l =
  nodes_occs g (pr_fs P) p ti tbl (imports_of (pr_heap P) p) (lk (pr_env P) root version g) before l.
Proof.
  induction l as [|e l IH]; intros Hin before; [done|]. cbn [nodes_occs]. rewrite (gf_node before e), (gf_local_def e) by (apply Hin; left).
  rewrite IH; [done|]. intros x Hx. apply Hin. by right.
Qed.
(** the recorded symbols of f *)
Lemma gf_entry m name z u : p_module p = Some m → file_of (pr_fs P) f name →
  (∃ i, tbl !! z = Some i ∧ fs_file (pr_fs P) z = Some name ∧ i_symbol i ≠ package_symbol m (p_path p) ∧ u = unrelated i) ↔
  (∃ i, tbl' !! z = Some i ∧ fs_file (pr_fs P') z = Some name ∧ i_symbol i ≠ package_symbol m (p_path p) ∧ u = unrelated i).
Proof.
  intros Em N. pose proof (gf_name name N) as N'.
  destruct (final_table digest P g0 g p Ht Hs Hp) as (t0 & t & H0 & Hgt & Ha). rewrite Hg in Hgt. injection Hgt as <-.
  destruct (final_table digest P' g0' g' p' Ht' Hs' Hp') as (t0' & t' & H0' & Hgt' & Ha'). rewrite Hg' in Hgt'. injection Hgt' as <-.
  specialize (Ha z). specialize (Ha' z).
  assert (Hu : ∀ (a b : syminfo), same_info a b → unrelated b = unrelated a ∧ i_symbol b = i_symbol a).
  { intros a b (E1 & E2 & E3 & E4 & E5 & E6). split; [|done]. unfold unrelated. congruence. }
  assert (Hgo : place f z → t0' !! z = t0 !! z) by (intros Hpl; by eapply (gw_at p p' f)).
  split.
  - intros (i & Ei & Hz & Hne & ->). rewrite Ei in Ha. destruct (t0 !! z) as [i0|] eqn:E0; [|done]. cbn in Ha. destruct (Hu i0 i Ha) as [U1 U2].
    destruct (og_keys digest P Hix Hlay p t0 z Hp H0) as (x & name' & tj & m' & Hx & _ & Em' & Nx & Hzx & Hor); [congruence|].
    rewrite Hz in Hzx. injection Hzx as <-. destruct (og_unique P Hix p p f x name Hp Hf Hp Hx N Nx) as [_ <-]. assert (m' = m) as -> by congruence.
    destruct Hor as [[Hpl Hc]|[_ E]]. 2:{ rewrite E0 in E. cbn in E. injection E as E. congruence. }
    rewrite (Hgo Hpl) in Ha'. destruct (tbl' !! z) as [i'|]; [|done]. cbn in Ha'. destruct (Hu i0 i' Ha') as [U1' U2'].
    exists i'. split; [done|]. split; [|split; congruence]. rewrite (gw_place p p' f z Hp Hp' Epath Hf Hpl). done.
  - intros (i' & Ei & Hz & Hne & ->). rewrite Ei in Ha'. destruct (t0' !! z) as [i0|] eqn:E0; [|done]. cbn in Ha'. destruct (Hu i0 i' Ha') as [U1 U2].
    destruct (og_keys digest P' Hix' Hlay' p' t0' z Hp' H0') as (x & name' & tj & m' & Hx & _ & Em' & Nx & Hzx & Hor); [congruence|].
    rewrite Hz in Hzx. injection Hzx as <-. destruct (og_unique P' Hix' p' p' f x name Hp' Hf' Hp' Hx N' Nx) as [_ <-].
    destruct (gw_pkg p p' Hp Hp' Epath) as (Em2 & _). assert (m' = m) as -> by congruence.
    destruct Hor as [[Hpl Hc]|[_ E]]. 2:{ rewrite E0 in E. cbn in E. injection E as E. rewrite Epath in E. congruence. }
    rewrite <-(Hgo Hpl) in Ha. destruct (tbl !! z) as [i|]; [|done]. cbn in Ha. destruct (Hu i0 i Ha) as [U1' U2'].
    exists i. split; [done|]. split; [|split; congruence]. rewrite <-(gw_place p p' f z Hp Hp' Epath Hf Hpl). done.
Qed.
Lemma gf_symbols m name to to' : p_module p = Some m → file_of (pr_fs P) f name → to ≡ₚ map_to_list tbl → to' ≡ₚ map_to_list tbl' →
  map unrelated (filter (λ i, i_symbol i ≠ package_symbol m (p_path p)) (map snd (symbols_for_file (pr_fs P') name to'))) ≡ₚ
  map unrelated (filter (λ i, i_symbol i ≠ package_symbol m (p_path p)) (map snd (symbols_for_file (pr_fs P) name to))).
Proof.
  intros Em N Hto Hto'. set (sym := package_symbol m (p_path p)).
  set (L := λ (fs : fset) (l : list (Z * syminfo)), map (λ e : Z * syminfo, (e.1, unrelated e.2)) (filter (λ e : Z * syminfo, i_symbol e.2 ≠ sym) (symbols_for_file fs name l))).
  assert (X : ∀ fs l, map unrelated (filter (λ i, i_symbol i ≠ sym) (map snd (symbols_for_file fs name l))) = map snd (L fs l)).
  { intros fs l. unfold L. rewrite map_map. cbn. induction (symbols_for_file fs name l) as [|e l' IH]; [done|]. cbn [map]. rewrite !filter_cons.
    destruct (decide (i_symbol e.2 ≠ sym)); cbn [map]; by rewrite IH. }
  assert (Y : ∀ fs (t : ptable) l, l ≡ₚ map_to_list t → NoDup (L fs l) ∧ ∀ z u, (z, u) ∈ L fs l ↔ ∃ i, t !! z = Some i ∧ fs_file fs z = Some name ∧ i_symbol i ≠ sym ∧ u = unrelated i).
  { intros fs t l Hl. split.
    - apply (NoDup_fmap_1 fst). unfold L, symbols_for_file. change (fmap fst (map ?h ?x)) with (map fst (map h x)). rewrite map_map. cbn.
      assert (Hnd : NoDup (map fst l)). { rewrite Hl. apply NoDup_fst_map_to_list. }
      clear -Hnd. induction l as [|e l IH]; [constructor|]. cbn in Hnd. apply NoDup_cons in Hnd as [Hn Hnd]. specialize (IH Hnd). rewrite filter_cons.
      destruct (decide _); [|done]. rewrite filter_cons. destruct (decide (i_symbol e.2 ≠ sym)); [|done]. cbn. constructor; [|done]. intros Hin. apply Hn.
      apply elem_of_list_fmap in Hin as (y & -> & Hy). apply elem_of_list_filter in Hy as [_ Hy]. apply elem_of_list_filter in Hy as [_ Hy]. by apply elem_of_list_fmap_1.
    - intros z u. unfold L, symbols_for_file. split.
      + intros ([z' i] & [= -> ->] & Hy)%elem_of_list_fmap. apply elem_of_list_filter in Hy as [H1 Hy]. apply elem_of_list_filter in Hy as [H2 Hy].
        rewrite Hl in Hy. apply elem_of_map_to_list in Hy. exists i. cbn in *. split_and!; try done.
      + intros (i & E & H1 & H2 & ->). apply elem_of_list_fmap. exists (z, i). split; [done|]. apply elem_of_list_filter. split; [done|]. apply elem_of_list_filter. split; [done|].
        rewrite Hl. by apply elem_of_map_to_list. }
  rewrite !X. apply Permutation_map. destruct (Y (pr_fs P) tbl to Hto) as [N1 E1]. destruct (Y (pr_fs P') tbl' to' Hto') as [N2 E2].
  apply NoDup_Permutation; [done|done|]. intros [z u]. rewrite E1, E2. symmetry. by apply (gf_entry m name z u).
Qed.
End Grow.

(** C84: When files and packages are added to a project, the index has the same document for every file that was there and
    refers to nothing that was added: the same path, the same occurrences in the same order, and, except about the package
    itself, the same information about symbols, up to relationships. *)
Theorem C84_other_documents : ∀ digest objstr root P P' msgs msgs' p p' f m ti ti',
  grown P P' → laid_out P → laid_out P' → indexed_as digest objstr root P msgs → indexed_as digest objstr root P' msgs' →
  p ∈ pr_pkgs P → p' ∈ pr_pkgs P' → p_path p' = p_path p → p_module p = Some m → p_info p = Some ti → p_info p' = Some ti' →
  f ∈ p_syntax p → untouched (pr_fs P) (pr_fs P') ti ti' f → refers_back P P' p p' ti f →
  ∃ d d', document_of (pr_pkgs P) (documents msgs) p f d ∧ document_of (pr_pkgs P') (documents msgs') p' f d' ∧
    d_path d' = d_path d ∧ d_occs d' = d_occs d ∧
    map unrelated (filter (λ i, i_symbol i ≠ package_symbol m (p_path p)) (d_symbols d')) ≡ₚ
    map unrelated (filter (λ i, i_symbol i ≠ package_symbol m (p_path p)) (d_symbols d)).
Proof.
  intros digest objstr root P P' msgs msgs' p p' f m ti ti' Hgr Hlay Hlay' (mo & version & impl & ie & po & ao & po2 & skip & meta & w & Hix & Hmo & K1 & K2 & K3 & Hic & Hrun)
    (mo' & version' & impl' & ie' & po' & ao' & po2' & skip' & meta' & w' & Hix' & Hmo' & K1' & K2' & K3' & Hic' & Hrun') Hp Hp' Epath Em Hti Hti' Hf Hut Hrb.
  destruct (success _ _ _ _ _ _ _ _ _ _ _ _ _ _ _ _ _ _ _ _ Hix Hmo K1 K2 K3 Hic msgs Hrun) as (ds & exts & g0 & g & kk & -> & Htab & _ & Hst & Hds).
  destruct (success _ _ _ _ _ _ _ _ _ _ _ _ _ _ _ _ _ _ _ _ Hix' Hmo' K1' K2' K3' Hic' msgs' Hrun') as (ds' & exts' & g0' & g' & kk' & -> & Htab' & _ & Hst' & Hds').
  destruct (gw_pkg P P' Hgr Hix' p p' Hp Hp' Epath) as (Em' & Hsyn & _). pose proof (Hsyn f Hf) as Hf'.
  assert ((p, f) ∈ files_in_order (pr_pkgs P)) as [a Ha]%elem_of_list_lookup by by apply files_elem.
  assert ((p', f) ∈ files_in_order (pr_pkgs P')) as [b Hb]%elem_of_list_lookup by by apply files_elem.
  destruct (Forall2_lookup_l _ _ _ _ _ Hds Ha) as (d & Hd & Hdoc). destruct (Forall2_lookup_l _ _ _ _ _ Hds' Hb) as (d' & Hd' & Hdoc'). cbn in Hdoc, Hdoc'.
  exists d, d'. split; [exists a; by rewrite documents_msgs|]. split; [exists b; by rewrite documents_msgs|].
  destruct Hdoc as (tj & tbl & st & sym & name & to & lo & H1 & H2 & H3 & H4 & H5 & H6 & H7 & ->). assert (tj = ti) as -> by congruence.
  destruct Hdoc' as (tj & tbl' & st' & sym' & name' & to' & lo' & H1' & H2' & H3' & H4' & H5' & H6' & H7' & ->). assert (tj = ti') as -> by congruence.
  pose proof (gw_name P P' Hgr Hix Hix' p p' f name Hp Hp' Epath Hf H2) as En. unfold file_of in En, H2'. rewrite En in H2'. injection H2' as <-.
  assert (Hld : is_Some (pr_all P !! p_path p)).
  { pose proof (loaded_symbols digest P g0 g (p_path p) Hix Htab Hst) as H. destruct (pr_all P !! p_path p) as [q|]; [by exists q|congruence]. }
  assert (sym' = sym) as ->.
  { pose proof (gw_syms digest P P' Hgr Hix g0 g g0' g' Htab Hst Htab' Hst' (p_path p) (λ _, Hld)) as E. rewrite Epath in H4'. congruence. }
  destruct (tpj_info _ _ _ _ (ix_typed _ _ _ _ _ _ Hix) p f Hp Hf) as (tj & ? & Hj & Htf & Hdi & _). assert (tj = ti) as -> by congruence. clear Hj.
  destruct (tpj_info _ _ _ _ (ix_typed _ _ _ _ _ _ Hix') p' f Hp' Hf') as (tj & ? & Hj & Htf' & _). assert (tj = ti') as -> by congruence. clear Hj.
  destruct (visited_occs _ _ _ _ _ _ _ _ _ _ _ _ _ Htf (lk_answers _ _ root version g _ _ _ _ Htf) st H5) as (_ & O & I).
  destruct (visited_occs _ _ _ _ _ _ _ _ _ _ _ _ _ Htf' (lk_answers _ _ root version' g' _ _ _ _ Htf') st' H5') as (_ & O' & I').
  pose proof (gf_local_defs digest P P' Hgr Hix Hlay Hix' Hlay' g0 g g0' g' Htab Hst Htab' Hst' p p' Hp Hp' Epath ti ti' Hti tbl tbl' H3 H3' f Hf Hf' Hut Hrb) as EL.
  assert (El : f_locals st' = f_locals st).
  { apply map_eq. intros pos. by rewrite (iv_locals _ _ _ _ _ _ _ I), (iv_locals _ _ _ _ _ _ _ I'), EL. }
  split; [done|]. split.
  - cbn [to_document d_occs]. rewrite O, O'. f_equal.
    + unfold clause_occurrence. f_equal. f_equal. apply (gf_pos P P' ti ti' f Hut (NIdent (file_ident f))); [|left].
      destruct (wff_file _ _ _ _ (tf_wf _ _ _ _ _ Htf)) as (pp & h & doc & nm & decls & ->). cbn. right. left.
    + apply (gf_nodes digest P P' Hgr root version version' Hix Hlay Hix' Hlay' g0 g g0' g' Htab Hst Htab' Hst' p p' Hp Hp' Epath ti ti' Hti Hti' tbl tbl' H3 H3' f Hf Hf' Hut Hrb).
      exact (ef_nodes_in P Hix p Hp f Hf).
  - cbn [to_document d_symbols]. rewrite !filter_app, !List.map_app. apply Permutation_app.
    + exact (gf_symbols digest P P' Hgr Hix Hlay Hix' Hlay' g0 g g0' g' Htab Hst Htab' Hst' p p' Hp Hp' Epath tbl tbl' H3 H3' f Hf Hf' m name to to' Em H2 H6 H6').
    + assert (lo' ≡ₚ lo) as -> by (by rewrite H7, H7', El). rewrite (gr_env _ _ Hgr).
      match goal with |- map unrelated (filter _ (map ?F lo)) ≡ₚ map unrelated (filter _ (map ?G lo)) => assert (map F lo = map G lo) as ->; [|done] end. apply map_ext_in. intros [z l] Hin. apply elem_of_list_In in Hin. rewrite H7 in Hin. apply elem_of_map_to_list in Hin.
      rewrite (iv_locals _ _ _ _ _ _ _ I) in Hin. destruct (index_of z _) as [k|]; [|done]. destruct (_ !! k) as [[z0 o0]|] eqn:Ek; [|done]. injection Hin as <-.
      apply elem_of_list_lookup_2 in Ek. unfold local_defs in Ek. apply elem_of_list_omap in Ek as (e & He & Ee).
      destruct (ef_nodes_in P Hix p Hp f Hf e He) as [Hsub _]. assert (Eo : z0 = o_pos o0).
      { clear -Ee. unfold local_def in Ee. destruct (plain_ident g ti e); [|done]. destruct (switch_object ti i); [by injection Ee as <- <-|].
        destruct (ti_defs ti (id_ptr i)) as [x|]; [|done]. destruct (registered g p tbl (o_pos x)); [done|]. by injection Ee as <- <-. }
      destruct (local_def_pos _ _ _ _ _ _ _ _ Ee Hsub (proj1 Hdi)) as (i & Ei & Ez). rewrite Ei in Hsub.
      unfold local_info. cbn [snd l_obj]. rewrite <-Eo, Ez. unfold case_at. by rewrite !find_filter, (ut_case _ _ _ _ _ Hut i Hsub).
Qed.
Print Assumptions C84_other_documents.
