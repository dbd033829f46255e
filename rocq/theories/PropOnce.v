(** C79: running the command twice gives the same index. *)
From Coq Require Import Ascii String.
From stdpp Require Import prelude strings gmap sorting.
From Verif Require Import GoStr Scip GoTypes Ast Packages Symbols Document Lookup Pass1 Pass2 Paths Env Loader Index
  SpecSymbol SpecDecl SpecLookup SpecOcc SpecIndex P_Symbols P_Pass1 P_Link P_Lookup P_Pass2 P_Occ P_Loader PropLoader P_Index PropIndex
  Quote Fingerprint SpecTypes P_Finger PropFinger Impls P_Rel P_Ident SpecImpl P_Filter P_Mem P_Extract P_Impl PropImpl PropDet
  Output Proto Cli PropCli Options PropOptions Url PropUrl PropCross PropMember Program PropPrecise PropEnd PropSkip PropFind P_Once.
Open Scope string_scope.
Open Scope list_scope.

(** *** The heaps of two loads *)
Lemma res_fold_ext {A B} (f g : A → B → res A) (l : list B) :
  (∀ a b, b ∈ l → f a b = g a b) → ∀ a, res_fold f a l = res_fold g a l.
Proof.
  induction l as [|b l IH]; intros H a; [done|]. cbn [res_fold]. rewrite H by left.
  destruct (g a b) as [a'|]; [|done]. cbn. apply IH. intros ? ? ?. apply H. by right.
Qed.

Section Heaps.
Context (h h' : pheap) (all proj : ptab) (Hsm : same_graph h h').
Context (Heq : ∀ k q, all !! k = Some q ∨ proj !! k = Some q → h !! q = h' !! q).

Lemma packages_same (t : ptab) (ks : list string) : (∀ k q, t !! k = Some q → h !! q = h' !! q) →
  omap (λ k, match t !! k with Some q => h !! q | None => None end) ks = omap (λ k, match t !! k with Some q => h' !! q | None => None end) ks.
Proof.
  intros H. induction ks as [|k ks IH]; [done|]. cbn. rewrite IH. destruct (t !! k) as [q|] eqn:E; [|done]. by rewrite (H k q E).
Qed.
Lemma project_same order : packages_of h proj order = packages_of h' proj order.
Proof. unfold packages_of. apply packages_same. intros k q E. by apply (Heq k); right. Qed.
Lemma symbols_same g ks : set_pkg_symbols g h all ks = set_pkg_symbols g h' all ks.
Proof.
  revert g. induction ks as [|k ks IH]; intros g; [done|]. cbn. destruct (all !! k) as [q|] eqn:E; [|done].
  rewrite <-(Heq k q) by (by left). destruct (h !! q); [|done]. destruct (set_pkg_symbol g g0); [|done]. cbn. apply IH.
Qed.
Lemma first_pass_same digest env fs root porder aorder :
  index_visit_packages digest env fs h root proj all porder aorder = index_visit_packages digest env fs h' root proj all porder aorder.
Proof. unfold index_visit_packages. by rewrite symbols_same, project_same. Qed.
Lemma visit_same env g fs p ti tbl po k f :
  visit_file env g fs p ti tbl (imports_of h p) po k f = visit_file env g fs p ti tbl (imports_of h' p) po k f.
Proof.
  unfold visit_file. apply res_fold_ext. intros st v _. destruct v; try done. cbn [Pass2.step]. do 3 f_equal.
  unfold import_occurrences. destruct (ti_pkgname_of ti _) as [ob|]; [|done]. destruct ob as [? ? ? ? kind ? ?].
  destruct kind; try done. unfold imports_of.
  destruct (List.find _ (p_imports p)) as [e|]; [|done]. pose proof (Hsm e.2) as X.
  destruct (h !! e.2) as [a|], (h' !! e.2) as [b|]; try done. destruct X as (X & _ & _).
  unfold get_pkg_symbol. by rewrite X.
Qed.
Lemma documents_same env fs objstr mo w g docs items : ∀ sofar n k,
  write_documents env fs h objstr mo w g docs sofar n k items = write_documents env fs h' objstr mo w g docs sofar n k items.
Proof.
  induction items as [|[p f] items IH]; intros sofar n k; [done|]. cbn [write_documents].
  destruct (file_name fs f); [|done]. destruct (docs !! a); [|done].
  assert (index_file env fs h objstr mo g n k p f s = index_file env fs h' objstr mo g n k p f s) as ->.
  { unfold index_file. destruct (p_info p), (sd_occ s); try done. destruct (file_name fs f); [|done]. cbn [res_bind]. by rewrite visit_same. }
  destruct (index_file env fs h' objstr mo g n k p f s) as [[doc k']|]; [|done]. destruct (w sofar (MDoc doc)); [done|]. apply IH.
Qed.

Context (env : tenv) (u : unicode) (crc : string → N) (mset : ty → list obj) (constraint_ok : ty → ty → bool)
  (package_level : gpkg → obj → bool) (scope_objects : gpkg → list obj).
Context (o : orders).
Lemma extract_same g (t : ptab) new k : (∀ k q, t !! k = Some q → all !! k = Some q ∨ proj !! k = Some q) →
  extract env u crc mset package_level scope_objects o h g t new k = extract env u crc mset package_level scope_objects o h' g t new k.
Proof.
  intros Ht. unfold extract.
  rewrite (packages_same t (or_packages o t)) by (intros key q E; by eapply Heq, Ht).
  done.
Qed.
Lemma search_same g k :
  impl_phase env u crc mset constraint_ok package_level scope_objects o h proj all g k =
  impl_phase env u crc mset constraint_ok package_level scope_objects o h' proj all g k.
Proof.
  unfold impl_phase, add_implementation_relationships.
  rewrite (extract_same g proj) by (intros ? ? E; by right).
  destruct (extract env u crc mset package_level scope_objects o h' g proj [] k) as [l|]; [|done]. cbn [res_bind].
  rewrite (extract_same g (remote_packages all proj)); [done|].
  intros key q E. left. unfold remote_packages in E. by apply map_filter_lookup_Some in E as [? _].
Qed.
Lemma index_same digest fs objstr mo w ie root version skip meta porder aorder porder2 :
  Index.index digest env fs h objstr mo w (impl_phase env u crc mset constraint_ok package_level scope_objects o h proj all) ie root version skip meta (LoadOk all proj) porder aorder porder2 =
  Index.index digest env fs h' objstr mo w (impl_phase env u crc mset constraint_ok package_level scope_objects o h' proj all) ie root version skip meta (LoadOk all proj) porder aorder porder2.
Proof.
  unfold Index.index. destruct (w [] _); [done|]. rewrite first_pass_same.
  destruct (index_visit_packages digest env fs h' root proj all porder aorder) as [[docs g]|]; [|done].
  rewrite search_same.
  destruct (if skip then _ else _) as [[[[g1 k1] exts]|]|]; try done. by rewrite documents_same, project_same.
Qed.
End Heaps.

(** *** Writers *)
(** [w'] takes every message of msgs *)
Definition takes (w' : writer) (msgs : list message) : Prop := ∀ pre m post, msgs = pre ++ m :: post → w' pre m = None.
Section Writers.
Context (w w' : writer).
Lemma all_written l : ∀ sofar msgs, write_all w sofar l = (msgs, None) → sofar `prefix_of` msgs ∧ (takes w' msgs → write_all w' sofar l = (msgs, None)).
Proof.
  induction l as [|m l IH]; intros sofar msgs E; cbn [write_all] in *; [injection E as ->; by split|].
  destruct (w sofar m); [done|]. destruct (IH _ _ E) as [[post Hp] H]. split.
  { exists (m :: post). by rewrite Hp, <-List.app_assoc. }
  intros Ht. rewrite (Ht sofar m post); [by apply H|]. by rewrite Hp, <-List.app_assoc.
Qed.
Lemma documents_written env fs h objstr mo g docs items : ∀ sofar n k msgs k',
  write_documents env fs h objstr mo w g docs sofar n k items = (msgs, Returned None, k') →
  sofar `prefix_of` msgs ∧ (∀ msgs', msgs `prefix_of` msgs' → takes w' msgs' → write_documents env fs h objstr mo w' g docs sofar n k items = (msgs, Returned None, k')).
Proof.
  induction items as [|[p f] items IH]; intros sofar n k msgs k' E; cbn [write_documents] in *; [injection E as -> ->; by split|].
  destruct (file_name fs f) as [name|]; [|done]. destruct (docs !! name) as [d|]; [|by apply IH].
  destruct (index_file env fs h objstr mo g n k p f d) as [[doc k1]|]; [|done].
  destruct (w sofar (MDoc doc)); [done|]. destruct (IH _ _ _ _ _ E) as [[post Hp] H]. split.
  { exists (MDoc doc :: post). by rewrite Hp, <-List.app_assoc. }
  intros msgs' [rest Hr] Ht. rewrite (Ht sofar (MDoc doc) (post ++ rest)); [apply (H msgs'); [by exists rest|done]|].
  rewrite Hr, Hp, <-!List.app_assoc. done.
Qed.
Lemma run_written digest env fs h objstr mo impl ie root version skip meta ld po ao po2 msgs :
  the_run digest env fs h objstr mo impl ie root version skip meta ld po ao po2 w = (msgs, Returned None) → takes w' msgs →
  the_run digest env fs h objstr mo impl ie root version skip meta ld po ao po2 w' = (msgs, Returned None).
Proof.
  unfold the_run, Index.index. destruct (w [] (MMeta meta)); [done|]. destruct ld as [e|all proj]; [done|].
  destruct (index_visit_packages digest env fs h root proj all po ao) as [[docs g]|]; [|done].
  destruct (if skip then _ else _) as [[[[g1 k1] exts]|]|]; [|done|done].
  destruct (write_documents env fs h objstr mo w g1 docs [MMeta meta] 0 k1 _) as [[ms [[e|]|e]] k2] eqn:E; [done| |done].
  destruct (write_all w ms (map MExt exts)) as [ms' e] eqn:E2. intros [= -> ->] Ht.
  destruct (all_written _ _ _ E2) as [Hp H2]. destruct (documents_written _ _ _ _ _ _ _ _ _ _ _ _ _ E) as [[post Hq] H1].
  pose proof Hp as [rest Hr].
  rewrite (Ht [] (MMeta meta) (post ++ rest)) by (by rewrite Hr, Hq, <-List.app_assoc). rewrite (H1 msgs Hp Ht), (H2 Ht). done.
Qed.
End Writers.

(** *** Specification *)
(** What two runs of the command read is the same: the machine (directory, environment, git, arguments),
    what packages.Load returns, and the facts of the type checker.  Different: the order in which maps are
    iterated, the errors of the file system for the output, and the progress messages. *)
Record same_surroundings (S S' : surroundings) : Prop := SameSurroundings {
  sr_machine : su_machine S = su_machine S'; sr_world : su_world S = su_world S'; sr_packages : su_packages S = su_packages S';
  sr_builtin : su_builtin S = su_builtin S'; sr_fs : su_fs S = su_fs S'; sr_env : su_env S = su_env S'; sr_mset : su_mset S = su_mset S';
  sr_constraint : su_constraint S = su_constraint S'; sr_level : su_package_level S = su_package_level S'; sr_scope : su_scope S = su_scope S';
  sr_objstr : su_objstr S = su_objstr S'; sr_unicode : su_unicode S = su_unicode S'; sr_crc : su_crc S = su_crc S';
  sr_digest : su_digest S = su_digest S'; sr_tool : su_tool S = su_tool S' }.
(** Facts of the go command and the type checker: the packages that a package needs have different paths,
    and a scope has one object per name. *)
Definition go_builds (S : surroundings) (f : flags) : Prop :=
  (∀ o h0 roots, make_options (su_machine S) f = Ok (Some o) → su_packages S o = inr (h0, roots) → one_build h0 roots) ∧
  (∀ o P, loaded_by S f o P → scopes_ok P (TypeInfo (su_mset S) (su_constraint S) (su_package_level S) (su_scope S))).
(** Two indexes that differ only in the order of lists of symbols. *)
Definition same_scip (i i' : scip_index) : Prop :=
  si_meta i = si_meta i' ∧ Forall2 same_document (si_docs i) (si_docs i') ∧ si_exts i ≡ₚ si_exts i'.

(** *** Proofs *)
Lemma loaded_run S o h ld w msgs : loads (ro_index o) (su_world S) (su_builtin S) (su_packages S o) h ld → program_run S o h ld w = (msgs, Returned None) →
  ∃ h0 roots all proj, su_packages S o = inr (h0, roots) ∧ load_packages (ro_index o) (su_world S) (su_builtin S) h0 roots h all proj ∧ ld = LoadOk all proj.
Proof.
  intros Hl Hr. destruct Hl as [e h Ha|h0 roots m h Ha Hp|h0 roots h all proj Ha Hload]; try (exfalso; by eapply load_failed_no_zero).
  by exists h0, roots, all, proj.
Qed.
Lemma program_written S o h ld w w' msgs : program_run S o h ld w = (msgs, Returned None) → takes w' msgs → program_run S o h ld w' = (msgs, Returned None).
Proof. exact (run_written w w' _ _ _ _ _ _ _ _ _ _ _ _ _ _ _ _ msgs). Qed.
Section Two.
Context (S S' : surroundings) (f : flags) (Hss : same_surroundings S S') (Hg : go_works S f) (Hg' : go_works S' f) (Hb : go_builds S f).
(** the second run on the packages as the first run left them *)
Lemma second_run o h0 roots h h' all proj : make_options (su_machine S) f = Ok (Some o) → su_packages S o = inr (h0, roots) →
  load_packages (ro_index o) (su_world S) (su_builtin S) h0 roots h all proj → load_packages (ro_index o) (su_world S) (su_builtin S) h0 roots h' all proj →
  ∀ w, program_run S' o h (LoadOk all proj) w = program_run S' o h' (LoadOk all proj) w.
Proof.
  intros Ho Ha L L' w. destruct (Hg o h0 roots h all proj Ho Ha L) as (P & _ & _ & _ & G).
  destruct (heaps_once (ro_index o) (su_world S) (su_builtin S) h0 roots (gg_input _ _ _ _ _ G) h all proj h' L L') as [Hsm Heq].
  unfold program_run. by apply index_same.
Qed.
Lemma second_on_first o P : loaded_by S f o P → iteration_ok (pr_heap P) (pr_all P) (pr_proj P) (su_iteration S').
Proof.
  intros (h0 & roots & Ho & Ha & L & G). destruct Hss. destruct (Hg' o h0 roots (pr_heap P) (pr_all P) (pr_proj P)) as (P' & <- & <- & <- & G'); [congruence|congruence|congruence|].
  by destruct G'.
Qed.
Lemma runs_agree o P w w' msgs msgs' : loaded_by S f o P →
  program_run S o (pr_heap P) (LoadOk (pr_all P) (pr_proj P)) w = (msgs, Returned None) →
  program_run S' o (pr_heap P) (LoadOk (pr_all P) (pr_proj P)) w' = (msgs', Returned None) → same_index msgs msgs'.
Proof.
  intros HP R R'. pose proof (guarantees_indexable _ _ _ _ HP) as Hix. pose proof (second_on_first o P HP) as Hit'. pose proof (proj2 Hb o P HP) as Hsk.
  destruct HP as (h0 & roots & Ho & Ha & L & G). pose proof (gg_analysable _ _ _ _ _ G) as Han. pose proof (gg_iteration _ _ _ _ _ G) as Hit.
  destruct Hss. unfold program_run in R, R'. rewrite <-sr_digest0, <-sr_env0, <-sr_fs0, <-sr_objstr0, <-sr_unicode0, <-sr_crc0, <-sr_mset0, <-sr_constraint0, <-sr_level0, <-sr_scope0, <-sr_tool0 in R'.
  rewrite <-(gg_env _ _ _ _ _ G) in R, R', Han. rewrite <-(gg_fs _ _ _ _ _ G) in R, R'.
  eapply (C57_deterministic (su_digest S) (pr_env P) (su_unicode S) (su_crc S) (su_mset S) (su_constraint S) (pr_objs P) (su_package_level S) (su_scope S)
    (pr_fs P) (su_objstr S) (io_module_root (ro_index o)) (io_module_version (ro_index o)) (pr_heap P) (pr_all P) (pr_proj P) (pr_pkgs P) Hix Han "" (io_skip_impls (ro_index o)) _
    (su_iteration S) (su_iteration S') w w' (remote_packages (pr_all P) (pr_proj P))); [exact Hit|exact Hit'|apply remote_dependencies| |exact R|exact R'].
  intros g Ht. split.
  - exact (project_distinct P (TypeInfo (su_mset S) (su_constraint S) (su_package_level S) (su_scope S)) (su_digest S) Hix Han Hsk _ _ g Ht).
  - exact (dependencies_distinct P (TypeInfo (su_mset S) (su_constraint S) (su_package_level S) (su_scope S)) (su_digest S) Hix Han Hsk _ _ g Ht).
Qed.
Lemma runs_succeed o P msgs : loaded_by S f o P →
  program_run S o (pr_heap P) (LoadOk (pr_all P) (pr_proj P)) (λ _ _, None) = (msgs, Returned None) →
  ∃ msgs', program_run S' o (pr_heap P) (LoadOk (pr_all P) (pr_proj P)) (λ _ _, None) = (msgs', Returned None) ∧ same_index msgs msgs'.
Proof.
  intros HP R. pose proof (guarantees_indexable _ _ _ _ HP) as Hix. pose proof (second_on_first o P HP) as Hit'. pose proof (proj2 Hb o P HP) as Hsk.
  destruct HP as (h0 & roots & Ho & Ha & L & G). pose proof (gg_analysable _ _ _ _ _ G) as Han. pose proof (gg_iteration _ _ _ _ _ G) as Hit.
  destruct Hss. unfold program_run in *. rewrite <-sr_digest0, <-sr_env0, <-sr_fs0, <-sr_objstr0, <-sr_unicode0, <-sr_crc0, <-sr_mset0, <-sr_constraint0, <-sr_level0, <-sr_scope0, <-sr_tool0.
  rewrite <-(gg_env _ _ _ _ _ G) in R, Han |- *. rewrite <-(gg_fs _ _ _ _ _ G) in R |- *.
  eapply (C57_success_independent (su_digest S) (pr_env P) (su_unicode S) (su_crc S) (su_mset S) (su_constraint S) (pr_objs P) (su_package_level S) (su_scope S)
    (pr_fs P) (su_objstr S) (io_module_root (ro_index o)) (io_module_version (ro_index o)) (pr_heap P) (pr_all P) (pr_proj P) (pr_pkgs P) Hix Han "" (io_skip_impls (ro_index o)) _
    (su_iteration S) (su_iteration S') (remote_packages (pr_all P) (pr_proj P))); [exact Hit|exact Hit'|apply remote_dependencies| |exact R].
  intros g Ht. split.
  - exact (project_distinct P (TypeInfo (su_mset S) (su_constraint S) (su_package_level S) (su_scope S)) (su_digest S) Hix Han Hsk _ _ g Ht).
  - exact (dependencies_distinct P (TypeInfo (su_mset S) (su_constraint S) (su_package_level S) (su_scope S)) (su_digest S) Hix Han Hsk _ _ g Ht).
Qed.
End Two.

(** C79: loading the same packages again, with the maps of imports in other orders, gives the same tables and the
    same normalised packages in them, and cannot panic if it did not before. *)
Theorem C79_same_load : ∀ o w bp h0 roots h all proj, load_input bp h0 roots → one_build h0 roots →
  load_packages o w bp h0 roots h all proj →
  (∀ h' all' proj', load_packages o w bp h0 roots h' all' proj' →
    all' = all ∧ proj' = proj ∧ ∀ k q, all !! k = Some q ∨ proj !! k = Some q → h' !! q = h !! q) ∧
  ∀ m h', ¬ loads o w bp (inr (h0, roots)) h' (LoadFailed m).
Proof.
  intros o w bp h0 roots h all proj Hin Hone L. split.
  - intros h' all' proj' L'. destruct (tables_once o w bp h0 roots Hin Hone _ _ _ _ _ _ L L') as [<- <-].
    split; [done|]. split; [done|]. intros k q Hq. symmetry. by eapply (heaps_once o w bp h0 roots Hin h all proj h' L L').
  - intros m h' Hl. inversion Hl as [e ? Ha|h1 roots1 m1 ? Ha Hp|]; [done|]. injection Ha as <- <-. by eapply (panics_once o w bp h0 roots Hin Hone).
Qed.
Print Assumptions C79_same_load.

(** the file of a run that ended well *)
Lemma good_file S o h ld output t q t' out msgs : regular_output t output q → sy_create (su_sys S) = None →
  program_run S o h ld (cli_writer (sy_write (su_sys S))) = (msgs, Returned None) → t' = <[q := FReg (bytes_of_messages msgs)]> t →
  (∀ c, t' !! q = Some (FReg c) → (Z.of_nat (slen c) < 2 ^ 63)%Z) →
  index_cmd (su_sys S) (su_noise S) None (program_run S o h ld) output t = (t', out, Exit 0 None) →
  ∃ ix, t' !! q = Some (FReg (bytes_of_messages msgs)) ∧ read_index (bytes_of_messages msgs) = Some ix ∧
    si_meta ix = index_metadata (su_tool S) (ro_index o) ∧ si_docs ix = documents msgs ∧ si_exts ix = externals msgs.
Proof.
  intros Ho Hc Hr Et Hsz E. assert (Hc' : t' !! q = Some (FReg (bytes_of_messages msgs))) by (rewrite Et; apply lookup_insert).
  destruct (C40_success_decodes (su_digest S) (su_env S) (su_fs S) h (su_objstr S) (it_maps (su_iteration S)) _ "" (io_module_root (ro_index o)) (io_module_version (ro_index o))
    (io_skip_impls (ro_index o)) (index_metadata (su_tool S) (ro_index o)) ld (it_proj (su_iteration S)) (it_all (su_iteration S)) (it_proj2 (su_iteration S))
    (su_sys S) (su_noise S) output t q msgs Ho Hc Hr (Hsz _ Hc')) as (t1 & out1 & c1 & E1 & E2 & E3).
  pose proof (C40_success (su_sys S) (su_noise S) _ output t q msgs Ho Hc Hr) as [out2 E4]. rewrite E4 in E. injection E as <- _.
  unfold program_run in E4. unfold the_run in E1. rewrite E4 in E1. injection E1 as <- _. rewrite lookup_insert in E2. injection E2 as <-.
  eexists. split; [exact Hc'|]. split; [exact E3|]. done.
Qed.
Lemma externals_msgs m ds exts : externals (MMeta m :: map MDoc ds ++ map MExt exts) = exts.
Proof.
  unfold externals. cbn. rewrite omap_app. replace (omap _ (map MDoc ds)) with (@nil syminfo) by (by induction ds). cbn.
  induction exts as [|x l IH]; [done|]. cbn. by rewrite IH.
Qed.
Lemma same_parts msgs msgs' : same_index msgs msgs' → Forall2 same_document (documents msgs) (documents msgs') ∧ externals msgs ≡ₚ externals msgs'.
Proof.
  intros (meta & ds & ds' & exts & exts' & -> & -> & H1 & H2). rewrite !documents_msgs, !externals_msgs. done.
Qed.

(** C79: two runs of the command, with the same flags, in the same surroundings, that both exit with code 0,
    write the same index, up to the order of the lists of symbols: whatever the orders of iteration over maps
    (in the loader, the first pass, the search for implementations and the documents), the errors for other
    files and the messages. *)
Theorem C79_same_index : ∀ S S' f output t t' q q' u u' out out',
  same_surroundings S S' → go_works S f → go_works S' f → go_builds S f → regular_output t output q → regular_output t' output q' →
  scip_go S f output t (u, out, Exit 0 None) → scip_go S' f output t' (u', out', Exit 0 None) →
  (∀ c, u !! q = Some (FReg c) → (Z.of_nat (slen c) < 2 ^ 63)%Z) → (∀ c, u' !! q' = Some (FReg c) → (Z.of_nat (slen c) < 2 ^ 63)%Z) →
  ∃ c c' ix ix', u !! q = Some (FReg c) ∧ u' !! q' = Some (FReg c') ∧ read_index c = Some ix ∧ read_index c' = Some ix' ∧ same_scip ix ix'.
Proof.
  intros S S' f output t t' q q' u u' out out' Hss Hg Hg' Hb Ho Ho' Hr Hr' Hsz Hsz'.
  inversion Hr as [| |o h ld Eo Hld Er]. inversion Hr' as [| |o' h' ld' Eo' Hld' Er'].
  assert (o' = o) as ->. { rewrite <-(sr_machine _ _ Hss) in Eo'. congruence. }
  destruct (exit_zero (su_sys S) (su_noise S) _ output t q _ Ho Er eq_refl) as (Hc & msgs & Hrun & Et). cbn [fst] in Et.
  destruct (exit_zero (su_sys S') (su_noise S') _ output t' q' _ Ho' Er' eq_refl) as (Hc' & msgs' & Hrun' & Et'). cbn [fst] in Et'.
  destruct (good_file S o h ld output t q u out msgs Ho Hc Hrun Et Hsz Er) as (ix & F1 & F2 & F3 & F4 & F5).
  destruct (good_file S' o h' ld' output t' q' u' out' msgs' Ho' Hc' Hrun' Et' Hsz' Er') as (ix' & F1' & F2' & F3' & F4' & F5').
  exists (bytes_of_messages msgs), (bytes_of_messages msgs'), ix, ix'. do 4 (split; [done|]).
  destruct (loaded_run _ _ _ _ _ _ Hld Hrun) as (h0 & roots & all & proj & Ha & L & ->). destruct (loaded_run _ _ _ _ _ _ Hld' Hrun') as (h0' & roots' & all' & proj' & Ha' & L' & ->).
  rewrite <-(sr_packages _ _ Hss), Ha in Ha'. injection Ha' as <- <-. rewrite <-(sr_world _ _ Hss), <-(sr_builtin _ _ Hss) in L'.
  destruct (Hg o h0 roots h all proj Eo Ha L) as (P & <- & <- & <- & G). assert (HP : loaded_by S f o P) by (by exists h0, roots).
  destruct (tables_once _ _ _ _ roots (gg_input _ _ _ _ _ G) (proj1 Hb o h0 roots Eo Ha) _ _ _ _ _ _ L L') as [<- <-].
  rewrite <-(second_run S S' f Hg o h0 roots _ _ _ _ Eo Ha L L') in Hrun'.
  destruct (same_parts _ _ (runs_agree S S' f Hss Hg' Hb o P _ _ _ _ HP Hrun Hrun')) as [H1 H2].
  split; [by rewrite F3, F3', (sr_tool _ _ Hss)|]. rewrite F4, F4', F5, F5'. done.
Qed.
Print Assumptions C79_same_index.

(** ... and if one of them exits with code 0 then so does the other, unless the system reports an error for
    its output. *)
Lemma same_marshal msgs msgs' : same_index msgs msgs' → Forall (λ m, is_Some (marshal m)) msgs → Forall (λ m, is_Some (marshal m)) msgs'.
Proof.
  intros (meta & ds & ds' & exts & exts' & -> & -> & H1 & H2) H. apply List.Forall_cons_iff in H as [Hm H]. apply Forall_app in H as [Hd He].
  constructor; [done|]. apply Forall_app. rewrite !List.Forall_map in *. split.
  - clear -H1 Hd. induction H1 as [|d d' l l' (Hp & Hocc & Hsym) _ IH]; [done|]. apply List.Forall_cons_iff in Hd as [Hd Hl]. constructor; [|by apply IH].
    cbn [marshal] in *. assert (doc_utf8 d' = doc_utf8 d) as ->; [|by destruct (doc_utf8 d); [|destruct Hd]].
    unfold doc_utf8. rewrite Hp, Hocc. f_equal. apply eq_true_iff_eq. rewrite !forallb_forall.
    split; intros K x Hx; apply K; apply elem_of_list_In; apply elem_of_list_In in Hx; [by rewrite <-Hsym|by rewrite Hsym].
  - by rewrite <-H2.
Qed.
Lemma run_marshals S o h ld wr msgs oc : program_run S o h ld (cli_writer wr) = (msgs, oc) → Forall (λ m, is_Some (marshal m)) msgs.
Proof.
  intros E. pose proof (run_accepts (su_digest S) (su_env S) (su_fs S) h (su_objstr S) (it_maps (su_iteration S)) (match ld with
                | LoadFailed _ => λ _ _, Ok None
                | LoadOk all proj => impl_phase (su_env S) (su_unicode S) (su_crc S) (su_mset S) (su_constraint S) (su_package_level S)
                                       (su_scope S) (it_search (su_iteration S)) h proj all
                end) "" (io_module_root (ro_index o)) (io_module_version (ro_index o)) (io_skip_impls (ro_index o)) (index_metadata (su_tool S) (ro_index o)) ld
                (it_proj (su_iteration S)) (it_all (su_iteration S)) (it_proj2 (su_iteration S)) (cli_writer wr)) as Ha.
  unfold the_run in Ha. unfold program_run in E. rewrite E in Ha. cbn [fst] in Ha. apply Forall_lookup. intros i m Hi. specialize (Ha i m Hi). unfold cli_writer in Ha.
  destruct (marshal m); [by eexists|done].
Qed.
Theorem C79_same_success : ∀ S S' f output t t' q q' u out u' out' e,
  same_surroundings S S' → go_works S f → go_works S' f → go_builds S f → regular_output t output q → regular_output t' output q' →
  sy_create (su_sys S') = None → (∀ n, sy_write (su_sys S') n = None) →
  scip_go S f output t (u, out, Exit 0 None) → scip_go S' f output t' (u', out', e) → e = Exit 0 None.
Proof.
  intros S S' f output t t' q q' u out u' out' e Hss Hg Hg' Hb Ho Ho' Hcr Hwr Hr Hr'.
  inversion Hr as [| |o h ld Eo Hld Er]. apply scip_go_cases in Hr' as [(m & Em & _)|[(e' & Em & _)|(o' & h' & ld' & Eo' & Hld' & Er')]];
    [rewrite <-(sr_machine _ _ Hss) in Em; congruence..|].
  assert (o' = o) as ->. { rewrite <-(sr_machine _ _ Hss) in Eo'. congruence. }
  destruct (exit_zero (su_sys S) (su_noise S) _ output t q _ Ho Er eq_refl) as (Hc & msgs & Hrun & Et).
  destruct (loaded_run _ _ _ _ _ _ Hld Hrun) as (h0 & roots & all & proj & Ha & L & ->).
  pose proof (Hg o h0 roots h all proj Eo Ha L) as (P & <- & <- & <- & G). assert (HP : loaded_by S f o P) by (by exists h0, roots).
  rewrite <-(sr_packages _ _ Hss), <-(sr_world _ _ Hss), <-(sr_builtin _ _ Hss) in Hld'.
  assert (∃ h1, h' = h1 ∧ ld' = LoadOk (pr_all P) (pr_proj P) ∧ load_packages (ro_index o) (su_world S) (su_builtin S) h0 roots h1 (pr_all P) (pr_proj P)) as (h1 & -> & -> & L').
  { destruct Hld' as [e0 h' Ha'|h0' roots' m h' Ha' Hp|h0' roots' h' all' proj' Ha' L']; rewrite Ha in Ha'; [done| |]; injection Ha' as <- <-.
    - exfalso. by eapply (panics_once (ro_index o) (su_world S) (su_builtin S) h0 roots (gg_input _ _ _ _ _ G) (proj1 Hb o h0 roots Eo Ha)).
    - destruct (tables_once _ _ _ _ roots (gg_input _ _ _ _ _ G) (proj1 Hb o h0 roots Eo Ha) _ _ _ _ _ _ L L') as [<- <-]. by exists h'. }
  pose proof (run_marshals _ _ _ _ _ _ _ Hrun) as Hmar.
  assert (program_run S o (pr_heap P) (LoadOk (pr_all P) (pr_proj P)) (λ _ _, None) = (msgs, Returned None)) as Hrun0.
  { eapply program_written; [exact Hrun|by intros ? ? ?]. }
  destruct (runs_succeed S S' f Hss Hg' Hb o P msgs HP Hrun0) as (msgs' & Hrun' & Hsame).
  pose proof (same_marshal _ _ Hsame Hmar) as Hmar'. rewrite (second_run S S' f Hg o h0 roots _ _ _ _ Eo Ha L L') in Hrun'.
  assert (program_run S' o h1 (LoadOk (pr_all P) (pr_proj P)) (cli_writer (sy_write (su_sys S'))) = (msgs', Returned None)) as Hrun2.
  { eapply program_written; [exact Hrun'|]. intros pre m post ->. apply Forall_app in Hmar' as [_ Hmar'].
    apply List.Forall_cons_iff in Hmar' as [[b Hb1] _]. unfold cli_writer. by rewrite Hb1, Hwr. }
  destruct (C40_success (su_sys S') (su_noise S') _ output t' q' msgs' Ho' Hcr Hrun2) as [out1 E]. rewrite E in Er'. by injection Er' as _ _ <-.
Qed.
Print Assumptions C79_same_success.
