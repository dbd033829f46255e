(** Valid UTF-8, continued: the first pass over the packages, and the messages of a run. *)
From Coq Require Import Ascii String.
From stdpp Require Import prelude strings gmap sorting.
From Verif Require Import GoStr Scip GoTypes Packages Symbols Document Lookup Pass1 Pass2 Paths Loader Index Ast
  SpecSymbol SpecDecl SpecIndex P_Pass1 P_Fits Proto P_Valid P_Rel SpecText P_Text P_Text2.
Open Scope string_scope.
Open Scope list_scope.

Section Pass1.
Context (digest : string → string) (env : tenv) (fs : fset) (h : pheap) (objstr : obj → string) (mo : map_orders) (root : string).
Context (Hdig : ∀ s, utf8 (digest s)) (Hroot : utf8 root) (Hfs : ∀ pos n, fs_file fs pos = Some n → utf8 n).

Definition go_package_text (p : gpkg) : Prop :=
  package_text p ∧ (∀ f, f ∈ p_syntax p → source_text f) ∧ ∀ ti, p_info p = Some ti → info_texts objstr ti.
Context (Hheap : ∀ q p, h !! q = Some p → go_package_text p).

Definition docs_text (docs : docmap) : Prop := ∀ n d, docs !! n = Some d → utf8 (sd_path d) ∧ ∀ o, sd_occ d = Some o → occ_text o.
Lemma add_document_text docs f docs' : docs_text docs → add_document fs root docs f = Ok docs' → docs_text docs'.
Proof.
  intros H. unfold add_document, file_name. destruct (fs_file fs (file_package_pos f)) as [n|] eqn:E; [|done]. cbn [res_bind]. intros [= <-].
  intros n' d. rewrite lookup_insert_Some. intros [[_ <-]|[_ E']]; [|by eapply H]. cbn. split; [|done]. apply utf8_relative. by eapply Hfs.
Qed.
Lemma table_text ti p t : go_package_text p → p_info p = Some ti → visit_package_table digest ti fs env p = Ok t → tbl_text t.
Proof. intros (H1 & H2 & H3) Hi. apply (package_table_text digest env fs objstr Hdig ti p t); auto. Qed.
Lemma g_add_text g p t : glob_text g → module_text p → tbl_text t → glob_text (g_add g p t).
Proof.
  intros [H1 H2] Hp Ht. split; [|done]. intros id p' t'. cbn. rewrite lookup_insert_Some. intros [[_ [= <- <-]]|[_ E]]; [done|]. by eapply H1.
Qed.
Lemma no_table : tbl_text ∅.
Proof. intros pos i E. cbn in E. by rewrite lookup_empty in E. Qed.
Lemma package_syntax_text st p st' : go_package_text p → docs_text st.1 → glob_text st.2 → visit_package_syntax digest env fs root st p = Ok st' → docs_text st'.1 ∧ glob_text st'.2.
Proof.
  intros Hp Hd Hg. unfold visit_package_syntax. destruct (p_syntax p) as [|f0 l0] eqn:Es.
  { intros [= <-]. split; [done|]. apply g_add_text; [done|apply Hp|apply no_table]. }
  destruct (p_info p) as [ti|] eqn:Hi; [|done]. destruct (visit_package_table _ _ _ _ _) as [t|] eqn:Et; [|done]. cbn [res_bind].
  destruct (res_fold (add_document fs root) st.1 _) as [docs|] eqn:Ed; [|done]. cbn [res_bind]. intros [= <-]. split.
  - refine (res_fold_text docs_text _ _ _ _ _ Hd Ed). intros a b a' _. apply add_document_text.
  - apply g_add_text; [done|apply Hp|]. by eapply table_text.
Qed.
Lemma symbol_text_of g p : glob_text g → utf8 (match get_pkg_symbol g p with Some s => s | None => "" end).
Proof. intros [_ H]. destruct (get_pkg_symbol g p) as [s|] eqn:E; [|done]. by eapply H. Qed.
Lemma insert_by_elem {A} (key : A → nat) x l y : y ∈ insert_by key x l → y = x ∨ y ∈ l.
Proof.
  induction l as [|a l IH]; cbn; [intros ->%elem_of_list_singleton; by left|]. destruct (Nat.leb _ _).
  - intros [->|[->|?]%elem_of_cons]%elem_of_cons; [by left|right; by left|right; by right].
  - intros [->|[->|?]%IH]%elem_of_cons; [right; by left|by left|right; by right].
Qed.
Lemma stable_sort_elem {A} (key : A → nat) l y : y ∈ stable_sort key l → y ∈ l.
Proof. induction l as [|x l IH]; cbn; [done|]. intros [->|?]%insert_by_elem; [by left|right; auto]. Qed.
Lemma package_docs_text p : go_package_text p → Forall (λ s, utf8 s) (find_package_docs fs p).
Proof.
  intros (_ & Hs & _). unfold find_package_docs. apply Forall_fmap, Forall_forall. intros f Hf%stable_sort_elem. apply elem_of_list_In, filter_In in Hf as [Hf _].
  apply elem_of_list_In in Hf. pose proof (source_self f (Hs f Hf)) as Hn. cbn. by destruct f.
Qed.
Lemma package_info_text g p : go_package_text p → glob_text g → info_utf8 (package_info fs g p) = true.
Proof.
  intros Hp Hg. pose proof Hp as ((_ & Hn & _) & _ & _). apply info_spec. unfold package_info. cbn [i_symbol i_documentation i_relationships i_display_name i_signature i_enclosing].
  split; [by apply symbol_text_of|]. split; [by apply package_docs_text|]. split; [constructor|]. split; [done|]. split; [|done]. intros t [= <-]. by apply utf8_app.
Qed.
Lemma g_set_text g p pos i : glob_text g → info_utf8 i = true → glob_text (g_set g p pos i).
Proof.
  intros [H1 H2] Hi. unfold g_set. destruct (g_symbols g !! p_path p) as [[q t]|] eqn:E; [|done]. destruct (H1 _ _ _ E) as [Hq Ht].
  split; [|done]. intros id p' t'. cbn. rewrite lookup_insert_Some. intros [[_ [= <- <-]]|[_ E']]; [|by eapply H1]. split; [done|]. by apply pset_text.
Qed.
Lemma project_package_text st p st' : go_package_text p → docs_text st.1 → glob_text st.2 →
  visit_project_package digest env fs root st p = Ok st' → docs_text st'.1 ∧ glob_text st'.2.
Proof.
  intros Hp Hd Hg. unfold visit_project_package. destruct (visit_package_syntax digest env fs root st p) as [st1|] eqn:E1; [|done]. cbn [res_bind].
  destruct (package_syntax_text _ _ _ Hp Hd Hg E1) as [Hd1 Hg1]. destruct (p_syntax p) as [|f0 l0] eqn:Es; [by intros [= <-]|].
  destruct (file_name fs f0) as [n0|]; [|done]. cbn [res_bind]. destruct (st1.1 !! n0); [|done]. set (g := g_set _ _ _ _).
  assert (Hg2 : glob_text g) by (by apply g_set_text; [|apply package_info_text]).
  destruct (res_fold _ st1.1 _) as [docs|] eqn:E2; [|done]. cbn [res_bind]. intros [= <-]. split; [|done]. cbn [fst].
  refine (res_fold_text docs_text _ _ _ _ _ Hd1 E2). intros a f a' _ Ha. unfold set_package_occurrence. destruct (file_name fs f) as [n|]; [|done]. cbn [res_bind].
  destruct (a !! n) as [d|] eqn:En; [|done]. intros [= <-]. intros n' d'. rewrite lookup_insert_Some. intros [[_ <-]|[_ E']]; [|by eapply Ha].
  cbn [sd_path sd_occ]. split; [by apply (Ha n)|]. intros o [= <-]. unfold occ_text, package_occurrence. cbn. by apply symbol_text_of.
Qed.
Lemma set_pkg_symbols_text all ks : ∀ g g', glob_text g → set_pkg_symbols g h all ks = Ok g' → glob_text g'.
Proof.
  induction ks as [|k ks IH]; intros g g' Hg; cbn [set_pkg_symbols]; [by intros [= <-]|]. destruct (all !! k) as [q|]; [|by apply IH].
  destruct (h !! q) as [p|] eqn:Eq; [|done]. destruct (Hheap q p Eq) as ((Hpath & _ & Hm) & _). destruct (set_pkg_symbol g p) as [g1|] eqn:E; [|done]. cbn [res_bind]. apply IH.
  unfold set_pkg_symbol in E. destruct (from_descriptors p [Desc (p_path p) Namespace]) as [s|] eqn:Es; [|done]. cbn [res_bind] in E. injection E as <-.
  assert (Hs : utf8 s) by (eapply from_descriptors_text; [exact Hm| |exact Es]; constructor; [done|constructor]).
  destruct Hg as [H1 H2]. split.
  - intros id p' t'. cbn. rewrite lookup_insert_Some. intros [[_ [= <- <-]]|[_ E']]; [|by eapply H1]. split; [done|apply no_table].
  - intros id s'. cbn. rewrite lookup_insert_Some. intros [[_ <-]|[_ E']]; [done|]. by eapply H2.
Qed.
Lemma packages_of_elem t order p : p ∈ packages_of h t order → ∃ q, h !! q = Some p.
Proof. unfold packages_of. intros (k & _ & E)%elem_of_list_omap. destruct (t !! k) as [q|]; [|done]. by exists q. Qed.
Lemma pass1_text proj all po ao docs g : index_visit_packages digest env fs h root proj all po ao = Ok (docs, g) → docs_text docs ∧ glob_text g.
Proof.
  unfold index_visit_packages. destruct (set_pkg_symbols _ _ _ _) as [g0|] eqn:E0; [|done]. cbn [res_bind].
  intros E. refine (res_fold_text (λ st : docmap * global, docs_text st.1 ∧ glob_text st.2) _ _ _ _ _ _ E).
  - intros a p a' [q Hq]%packages_of_elem [Ha1 Ha2]. apply project_package_text; [by eapply Hheap|done|done].
  - split; [intros n d E'; cbn in E'; by rewrite lookup_empty in E'|]. refine (set_pkg_symbols_text _ _ _ _ _ E0).
    split; intros ? ?; cbn; [intros ? E'|intros E']; by rewrite lookup_empty in E'.
Qed.

(** *** the messages *)
Notation marshals m := (is_Some (marshal m)).
Lemma index_file_text g n k p f d doc k' : orders_ok mo → glob_text g → caches_text k → go_package_text p → utf8 (sd_path d) → (∀ o, sd_occ d = Some o → occ_text o) →
  index_file env fs h objstr mo g n k p f d = Ok (doc, k') → marshals (MDoc doc) ∧ caches_text k'.
Proof.
  intros Ho Hg Hk Hp Hd Hocc. unfold index_file. destruct (p_info p) as [ti|] eqn:Hi; [|done]. destruct (sd_occ d) as [po|]; [|done].
  destruct (file_name fs f) as [nm|]; [|done]. cbn [res_bind]. set (tbl := match get_package g p with Some t => t | None => ∅ end).
  assert (Ht : tbl_text tbl).
  { subst tbl. unfold get_package. destruct (g_symbols g !! p_path p) as [[q t]|] eqn:E; cbn; [by eapply (proj1 Hg)|apply no_table]. }
  assert (Hti : info_texts objstr ti) by by apply Hp.
  destruct (visit_file _ _ _ _ _ _ _ _ _ _) as [st|] eqn:E; [|done]. cbn [res_bind]. intros [= <- <-].
  pose proof (visit_file_text env fs objstr g p ti tbl (imports_of h p) Hg Ht Hti po k f st (Hocc _ eq_refl) Hk E) as Hst.
  split; [|apply Hst]. cbn [marshal]. rewrite to_document_text; [by eexists|try done..].
Qed.
Lemma write_documents_text w g docs items : orders_ok mo → glob_text g → docs_text docs → (∀ p f, (p, f) ∈ items → go_package_text p) →
  ∀ sofar n k msgs oc k', caches_text k → Forall (λ m, marshals m) sofar →
  write_documents env fs h objstr mo w g docs sofar n k items = (msgs, oc, k') →
  Forall (λ m, marshals m) msgs ∧ ∀ e, oc = Returned (Some e) → ∃ m, marshals m ∧ w msgs m = Some e.
Proof.
  intros Ho Hg Hd. induction items as [|[p f] items IH]; intros Hi sofar n k msgs oc k' Hk Hs; cbn [write_documents]; [by intros [= <- <- _]|].
  assert (Hi' : ∀ p f, (p, f) ∈ items → go_package_text p) by (intros p1 f1 H1; eapply Hi; right; exact H1).
  destruct (file_name fs f) as [name|]; [|by intros [= <- <- _]]. destruct (docs !! name) as [d|] eqn:Ed; [|by apply IH].
  destruct (index_file _ _ _ _ _ _ _ _ _ _ _) as [[doc k1]|] eqn:Ei; [|by intros [= <- <- _]].
  destruct (Hd _ _ Ed) as [D1 D2]. destruct (index_file_text g n k p f d doc k1 Ho Hg Hk) as [Hm Hk1]; [by eapply Hi; left|done|done|done|].
  destruct (w sofar (MDoc doc)) as [e|] eqn:Ew.
  - intros [= <- <- _]. split; [done|]. intros e' [= <-]. by exists (MDoc doc).
  - apply IH; [done|done|]. apply Forall_app. split; [done|]. by constructor.
Qed.
Lemma write_all_text w exts : Forall (λ i, info_utf8 i = true) exts → ∀ sofar msgs oe, Forall (λ m, marshals m) sofar → write_all w sofar (map MExt exts) = (msgs, oe) →
  Forall (λ m, marshals m) msgs ∧ ∀ e, oe = Some e → ∃ m, marshals m ∧ w msgs m = Some e.
Proof.
  induction 1 as [|i exts Hi Hl IH]; intros sofar msgs oe Hs; cbn [write_all map]; [by intros [= <- <-]|].
  assert (Hm : marshals (MExt i)) by (cbn [marshal]; rewrite Hi; by eexists). destruct (w sofar (MExt i)) as [e|] eqn:Ew.
  - intros [= <- <-]. split; [done|]. intros e' [= <-]. by exists (MExt i).
  - apply IH. apply Forall_app. split; [done|]. by constructor.
Qed.

(** every message that the run gives to the writer marshals: the ones written, and the one at which the writer failed *)
Lemma index_text w impl impl_error version skip meta ld po ao po2 msgs oc :
  orders_ok mo → utf8 version → meta_utf8 meta = true →
  (∀ g k g' k' exts, glob_text g → caches_text k → impl g k = Ok (Some (g', k', exts)) → glob_text g' ∧ caches_text k' ∧ Forall (λ i, info_utf8 i = true) exts) →
  Index.index digest env fs h objstr mo w impl impl_error root version skip meta ld po ao po2 = (msgs, oc) →
  Forall (λ m, marshals m) msgs ∧
  ∀ e, oc = Returned (Some e) → ld = LoadFailed e ∨ (∃ g k, impl g k = Ok None) ∨ ∃ m, marshals m ∧ w msgs m = Some e.
Proof.
  intros Ho Hv Hm Himpl. unfold index. assert (M : marshals (MMeta meta)) by (cbn [marshal]; rewrite Hm; by eexists).
  destruct (w [] (MMeta meta)) as [e0|] eqn:Ew.
  { intros [= <- <-]. split; [done|]. intros e [= <-]. right; right. by exists (MMeta meta). }
  assert (M1 : Forall (λ m, marshals m) [MMeta meta]) by by constructor.
  destruct ld as [err|all proj]; [intros [= <- <-]; split; [done|]; intros e [= <-]; by left|].
  destruct (index_visit_packages _ _ _ _ _ _ _ _ _) as [[docs g]|] eqn:E1; [|by intros [= <- <-]]. destruct (pass1_text _ _ _ _ _ _ E1) as [Hdocs Hg].
  set (k0 := Caches ∅ (new_composer root version)). assert (Hk0 : caches_text k0) by (split_and!; [done|done|constructor]).
  destruct (if skip then _ else _) as [[[[g' k] exts]|]|] eqn:Ei; [| |by intros [= <- <-]].
  2:{ intros [= <- <-]. split; [done|]. intros e [= <-]. right; left. destruct skip; [done|]. by exists g, k0. }
  assert (glob_text g' ∧ caches_text k ∧ Forall (λ i, info_utf8 i = true) exts) as (Hg' & Hk & Hexts).
  { destruct skip; [injection Ei as <- <- <-; split_and!; [done|exact Hk0|constructor]|]. by eapply Himpl. }
  destruct (write_documents _ _ _ _ _ _ _ _ _ _ _ _) as [[ms o] k'] eqn:E2.
  assert (Hitems : ∀ p f, (p, f) ∈ items_of (packages_of h proj po2) → go_package_text p).
  { intros p f Hin. unfold items_of in Hin. apply elem_of_concat_map in Hin as (p0 & Hp0 & Hin). apply elem_of_list_fmap in Hin as (f0 & [= -> ->] & _).
    apply packages_of_elem in Hp0 as [q Hq]. by eapply Hheap. }
  destruct (write_documents_text w g' docs _ Ho Hg' Hdocs Hitems _ _ _ _ _ _ Hk M1 E2) as [W1 W2].
  destruct o as [[e1|]|]; [| |by intros [= <- <-]].
  - intros [= <- <-]. split; [done|]. intros e [= <-]. right; right. by apply W2.
  - destruct (write_all w ms (map MExt exts)) as [ms' oe] eqn:E3. destruct (write_all_text w exts Hexts _ _ _ W1 E3) as [A1 A2].
    intros [= <- <-]. split; [done|]. intros e [= ->]. right; right. by apply A2.
Qed.
End Pass1.
