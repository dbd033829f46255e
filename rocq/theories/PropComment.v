(** C83: comments affect only documentation and deprecation. *)
From Coq Require Import Ascii String.
From stdpp Require Import prelude strings gmap sorting relations.
From Verif Require Import GoStr Scip GoTypes Ast Packages Symbols Document Lookup Pass1 Pass2 Paths Env Loader Index
  SpecSymbol SpecDecl SpecLookup SpecOcc SpecIndex P_Symbols P_Pass1 P_Link P_Lookup P_Pass2 P_Occ P_Loader PropLoader P_Index PropIndex
  Quote Fingerprint SpecTypes P_Finger PropFinger Impls P_Rel P_Ident SpecImpl P_Filter P_Mem P_Extract P_Impl PropImpl PropDet
  Output Proto Cli PropCli Options PropOptions Url PropUrl PropCross PropMember Program PropPrecise PropEnd PropSkip PropFind P_Once PropOnce
  SpecMove P_Move P_Move2 P_Move3 PropMove SpecComment P_Comment P_Comment2.
Open Scope string_scope.
Open Scope list_scope.

(** [S'] is [S] with other comments in the source files ([rc] rewrites them): the same machine, flags and packages, with
    the same types; the text can be at other lines and columns.  The map iteration orders, the file system and the
    progress messages are not compared. *)
Record same_but_comments (rc : node → node) (S S' : surroundings) (f : flags) : Prop := SameButComments {
  sc_only : comments_only rc;
  sc_machine : su_machine S' = su_machine S; sc_world : su_world S' = su_world S; sc_builtin : su_builtin S' = su_builtin S;
  sc_env : su_env S' = su_env S; sc_constraint : su_constraint S' = su_constraint S; sc_unicode : su_unicode S' = su_unicode S;
  sc_crc : su_crc S' = su_crc S; sc_digest : su_digest S' = su_digest S; sc_tool : su_tool S' = su_tool S;
  sc_packages : ∀ o, su_packages S' o = match su_packages S o with inl e => inl e | inr (h0, roots) => inr (rc_heap rc h0, roots) end;
  sc_files : same_files (su_fs S) (su_fs S');
  sc_groups : ∀ o h0 roots q p file, make_options (su_machine S) f = Ok (Some o) → su_packages S o = inr (h0, roots) →
    h0 !! q = Some p → file ∈ p_syntax p → groups_stay (su_fs S) (su_fs S') file;
  sc_mset : su_mset S' = su_mset S;
  sc_level : ∀ p o, su_package_level S' (rc_pkg rc p) o = su_package_level S p o;
  sc_scope : ∀ p, su_scope S' (rc_pkg rc p) = su_scope S p;
  sc_objstr : su_objstr S' = su_objstr S }.
(** Two indexes that differ only in documentation, diagnostics, the layout of the text, and the order of lists of symbols *)
Definition recommented_scip (fs fs' : fset) (i i' : scip_index) : Prop :=
  si_meta i' = si_meta i ∧ Forall2 (recommented_document fs fs') (si_docs i) (si_docs i') ∧
  map undocumented (si_exts i) ≡ₚ map undocumented (si_exts i').

(** *** Proofs *)
Section Load.
Context (rc : node → node) (o : index_opts) (w : world).
Notation K := (rc_pkg rc).
Notation H := (rc_heap rc).
Lemma rc_normalize p : normalize_package o w (K p) = res_map K (normalize_package o w p).
Proof.
  unfold normalize_package. destruct (io_driver_set o); [done|].
  change (is_standard_lib (K p)) with (is_standard_lib p). change (p_path (K p)) with (p_path p).
  destruct (is_standard_lib p || io_indexing_stdlib o)%bool; cbn [p_module with_path with_module rc_pkg].
  - by destruct (resolve_local _ _).
  - destruct (p_module p); [|done]. by destruct (resolve_local _ _).
Qed.
Lemma rc_skips h t p : skips (H h) t (K p) = skips h t p.
Proof.
  unfold skips, files_of. change (p_path (K p)) with (p_path p). destruct (t !! p_path p) as [q|]; [|done]. rewrite rc_heap_lookup. unfold nfiles.
  destruct (h !! q); [|done]. cbn. by rewrite !map_length.
Qed.
Definition rc_lstate (s : lstate) : lstate := LState (H (ls_heap s)) (ls_tab s) (ls_stack s).
Lemma rc_lstep s s' : lstep o w s s' → lstep o w (rc_lstate s) (rc_lstate s').
Proof.
  destruct 1 as [h t p g st Hg Hs|h t p g g' order st Hg Hs Hn Ho].
  - unfold rc_lstate. cbn [ls_heap ls_tab ls_stack]. apply (L_skip _ _ _ _ _ (K g)); [by rewrite rc_heap_lookup, Hg|by rewrite rc_skips].
  - unfold rc_lstate. cbn [ls_heap ls_tab ls_stack]. unfold rc_heap at 2. rewrite fmap_insert.
    apply (L_visit _ _ _ _ _ (K g) (K g')); [by rewrite rc_heap_lookup, Hg|by rewrite rc_skips|by rewrite rc_normalize, Hn|done].
Qed.
Lemma rc_lstep_back s s' : lstep o w (rc_lstate s) s' → ∃ s1, s' = rc_lstate s1 ∧ lstep o w s s1.
Proof.
  destruct s as [h t st]. unfold rc_lstate at 1. cbn [ls_heap ls_tab ls_stack]. inversion 1 as [h1 t1 p g st1 Hg Hs|h1 t1 p g g' order st1 Hg Hs Hn Ho]; subst.
  - rewrite rc_heap_lookup in Hg. destruct (h !! p) as [g0|] eqn:E; [|done]. injection Hg as <-. rewrite rc_skips in Hs.
    exists (LState h t st1). split; [done|]. by apply (L_skip _ _ _ _ _ g0).
  - rewrite rc_heap_lookup in Hg. destruct (h !! p) as [g0|] eqn:E; [|done]. injection Hg as <-. rewrite rc_skips in Hs.
    rewrite rc_normalize in Hn. destruct (normalize_package o w g0) as [g1|] eqn:En; [|done]. injection Hn as <-.
    exists (LState (<[p := g1]> h) (<[p_path g1 := p]> t) (order ++ st1)). split.
    + unfold rc_lstate. cbn [ls_heap ls_tab ls_stack]. unfold rc_heap. by rewrite fmap_insert.
    + by apply (L_visit _ _ _ _ _ g0 g1).
Qed.
Lemma rc_lsteps s s' : rtc (lstep o w) s s' → rtc (lstep o w) (rc_lstate s) (rc_lstate s').
Proof. induction 1 as [|s s1 s2 Hs _ IH]; [done|]. eapply rtc_l; [by apply rc_lstep|done]. Qed.
Lemma rc_lsteps_back s s' : rtc (lstep o w) (rc_lstate s) s' → ∃ s1, s' = rc_lstate s1 ∧ rtc (lstep o w) s s1.
Proof.
  intros Hr. remember (rc_lstate s) as s0 eqn:E. revert s E. induction Hr as [s0|s0 s1 s2 Hs _ IH]; intros s ->.
  - by exists s.
  - apply rc_lstep_back in Hs as (s3 & -> & Hs). destruct (IH s3 eq_refl) as (s4 & -> & Hr). exists s4. split; [done|]. by eapply rtc_l.
Qed.
Lemma rc_add_imports h t p h' t' : add_imports o w h t p h' t' → add_imports o w (H h) t p (H h') t'.
Proof. intros Ha. exact (rc_lsteps _ _ Ha). Qed.
Lemma rc_add_imports_back h t p h' t' : add_imports o w (H h) t p h' t' → ∃ h1, h' = H h1 ∧ add_imports o w h t p h1 t'.
Proof.
  intros Ha. destruct (rc_lsteps_back (LState h t [p]) _ Ha) as ([h1 t1 st1] & E & Hr). injection E as -> -> <-. by exists h1.
Qed.
Lemma rc_load_loop h t pj ps h' t' pj' : load_loop o w h t pj ps h' t' pj' → load_loop o w (H h) t pj ps (H h') t' pj'.
Proof.
  induction 1 as [|h t pj p ps h1 t1 g q h2 t2 pj2 Ha Hg Hq _ IH]; [constructor|].
  apply (LL_cons _ _ _ _ _ _ _ (H h1) t1 (K g) q); [by apply rc_add_imports|by rewrite rc_heap_lookup, Hg|done|done].
Qed.
Lemma rc_load_loop_back h t pj ps h' t' pj' : load_loop o w (H h) t pj ps h' t' pj' → ∃ h1, h' = H h1 ∧ load_loop o w h t pj ps h1 t' pj'.
Proof.
  intros Hl. remember (H h) as h0 eqn:E. revert h E. induction Hl as [h0 t pj|h0 t pj p ps h1 t1 g q h2 t2 pj2 Ha Hg Hq _ IH]; intros h ->.
  - exists h. split; [done|constructor].
  - apply rc_add_imports_back in Ha as (h3 & -> & Ha). destruct (IH h3 eq_refl) as (h4 & -> & Hl). rewrite rc_heap_lookup in Hg.
    destruct (h3 !! p) as [g0|] eqn:E; [|done]. injection Hg as <-. exists h4. split; [done|]. by eapply (LL_cons _ _ _ _ _ _ _ h3 t1 g0 q).
Qed.
End Load.
Lemma rc_builtin rc o h0 bp : <[bp := builtin_pkg bp o]> (rc_heap rc h0) = rc_heap rc (<[bp := builtin_pkg bp o]> h0).
Proof. unfold rc_heap. by rewrite fmap_insert. Qed.
Lemma rc_load_packages rc o w bp h0 roots h all proj : load_packages o w bp h0 roots h all proj → load_packages o w bp (rc_heap rc h0) roots (rc_heap rc h) all proj.
Proof. unfold load_packages. intros Hl. rewrite rc_builtin. by apply rc_load_loop. Qed.
Lemma rc_load_packages_back rc o w bp h0 roots h' all proj : load_packages o w bp (rc_heap rc h0) roots h' all proj → ∃ h, h' = rc_heap rc h ∧ load_packages o w bp h0 roots h all proj.
Proof. unfold load_packages. rewrite rc_builtin. apply rc_load_loop_back. Qed.
Lemma load_groups fs fs' o w bp h0 roots h all proj : load_packages o w bp h0 roots h all proj →
  (∀ q p f, h0 !! q = Some p → f ∈ p_syntax p → groups_stay fs fs' f) → ∀ q p f, h !! q = Some p → f ∈ p_syntax p → groups_stay fs fs' f.
Proof.
  intros Hl Hw q p f Hq Hf. destruct (load_loop_keeps _ _ _ _ _ _ _ _ _ Hl q p Hq) as (p0 & Hp & Hs). rewrite Hs in Hf.
  apply lookup_insert_Some in Hp as [[<- <-]|[_ Hp]]; [by apply elem_of_nil in Hf|]. by eapply (Hw q p0 f).
Qed.
Lemma rc_iteration_ok rc h all proj it : iteration_ok (rc_heap rc h) all proj it →
  iteration_ok h all proj (Iteration (it_maps it) (rc_orders rc (it_search it)) (it_proj it) (it_all it) (it_proj2 it)).
Proof.
  intros (I1 & [I2 I3] & I4). split; [exact I1|]. split; [|exact I4]. split; [destruct I2 as [J1 J2 J3 J4 J5 J6]; split; [exact J1|exact J2|exact J3|exact J4|exact J5|exact J6]|]. intros q p ti ob Hq Hp.
  cbn [it_search rc_orders or_defs]. apply (I3 q (rc_pkg rc p) ti ob); [by rewrite rc_heap_lookup, Hq|done].
Qed.

Section Two.
Context (rc : node → node) (S S' : surroundings) (f : flags) (Hsc : same_but_comments rc S S' f).
(** the second run, with the comments of the first *)
Definition kept : surroundings := Surroundings (su_machine S) (su_world S) (su_packages S) (su_builtin S) (su_fs S) (su_env S)
  (su_mset S) (su_constraint S) (su_package_level S) (su_scope S) (su_objstr S) (su_unicode S) (su_crc S) (su_digest S)
  (Iteration (it_maps (su_iteration S')) (rc_orders rc (it_search (su_iteration S'))) (it_proj (su_iteration S')) (it_all (su_iteration S')) (it_proj2 (su_iteration S')))
  (su_sys S') (su_noise S') (su_tool S).
Lemma kept_same : same_surroundings S kept.
Proof. by split. Qed.
Lemma kept_works : go_works S f → maps_iterate S' f → go_works kept f.
Proof.
  intros Hg Hm o h0 roots h all proj Ho Ha L. destruct (Hg o h0 roots h all proj Ho Ha L) as (P & E1 & E2 & E3 & G). exists P. do 3 (split; [done|]).
  destruct G as [G1 G2 G3 G4 G5 G6 G7 G8 G9 _]. split; try done. rewrite E1, E2, E3. cbn [kept su_iteration]. destruct Hsc.
  apply rc_iteration_ok. eapply Hm; [rewrite sc_machine0; exact Ho| |].
  - rewrite sc_packages0. cbn in Ha. by rewrite Ha.
  - rewrite sc_world0, sc_builtin0. by apply rc_load_packages.
Qed.
Lemma kept_run o h0 roots h all proj w msgs' : make_options (su_machine S) f = Ok (Some o) → su_packages S o = inr (h0, roots) →
  load_packages (ro_index o) (su_world S) (su_builtin S) h0 roots h all proj → SpecIndex.orders_ok (it_maps (su_iteration S')) →
  program_run S' o (rc_heap rc h) (LoadOk all proj) w = (msgs', Returned None) →
  ∃ msgs, program_run kept o h (LoadOk all proj) (λ _ _, None) = (msgs, Returned None) ∧ recommented_index (su_fs S) (su_fs S') msgs msgs'.
Proof.
  intros Ho Ha L Hmo Hr. destruct Hsc. unfold program_run in *. rewrite sc_env0, sc_constraint0, sc_unicode0, sc_crc0, sc_digest0, sc_tool0, sc_mset0, sc_objstr0 in Hr.
  cbn [kept su_machine su_world su_packages su_builtin su_fs su_env su_mset su_constraint su_package_level su_scope su_objstr
    su_unicode su_crc su_digest su_iteration su_sys su_noise su_tool it_maps it_search it_proj it_all it_proj2].
  eapply (R_index rc sc_only0 (su_digest S) (su_env S) (su_fs S) (su_fs S') sc_files0 h); [|exact Hmo|exact Hmo| |].
  - eapply load_groups; [exact L|]. intros. by eapply sc_groups0.
  - intros g g' k Hg. by apply (R_phase rc).
  - exact Hr.
Qed.
End Two.
Lemma recommented_parts fs fs' msgs msgs' : recommented_index fs fs' msgs msgs' →
  Forall2 (recommented_document fs fs') (documents msgs) (documents msgs') ∧ map undocumented (externals msgs) ≡ₚ map undocumented (externals msgs').
Proof. intros (meta & ds & ds' & exts & exts' & -> & -> & H1 & H2). by rewrite !documents_msgs, !externals_msgs. Qed.
Lemma same_recommented fs fs' d d1 d' : same_document d d1 → recommented_document fs fs' d1 d' → recommented_document fs fs' d d'.
Proof.
  intros (H1 & H2 & H3) (H4 & H5 & H6). split; [congruence|]. split; [by rewrite H2|]. rewrite <-H6. by apply Permutation_map.
Qed.

(** C83: two runs of the command on the same project with other comments in its files, that both exit with code 0, write
    indexes with the same metadata, documents, occurrences (symbols, roles and the texts they cover), symbols, kinds, display
    names, signatures, relationships and external symbols: only the documentation of symbols, the diagnostics of
    occurrences and the lines and columns of the texts can differ (and the order of lists of symbols).
    Whether the second run succeeds depends on its comments: one that is not UTF-8 cannot be written. *)
Theorem C83_same_index : ∀ rc S S' f output t t' q q' u u' out out',
  same_but_comments rc S S' f → go_works S f → go_builds S f → maps_iterate S' f →
  regular_output t output q → regular_output t' output q' →
  scip_go S f output t (u, out, Exit 0 None) → scip_go S' f output t' (u', out', Exit 0 None) →
  (∀ c, u !! q = Some (FReg c) → (Z.of_nat (slen c) < 2 ^ 63)%Z) → (∀ c, u' !! q' = Some (FReg c) → (Z.of_nat (slen c) < 2 ^ 63)%Z) →
  ∃ c c' ix ix', u !! q = Some (FReg c) ∧ u' !! q' = Some (FReg c') ∧ read_index c = Some ix ∧ read_index c' = Some ix' ∧
    recommented_scip (su_fs S) (su_fs S') ix ix'.
Proof.
  intros rc S S' f output t t' q q' u u' out out' Hsc Hg Hb Hm Ho Ho' Hr Hr' Hsz Hsz'. pose proof (kept_works rc S S' f Hsc Hg Hm) as Hk.
  inversion Hr as [| |o h ld Eo Hld Er]. inversion Hr' as [| |o' h' ld' Eo' Hld' Er'].
  assert (o' = o) as ->. { rewrite (sc_machine _ _ _ _ Hsc) in Eo'. congruence. }
  destruct (exit_zero (su_sys S) (su_noise S) _ output t q _ Ho Er eq_refl) as (Hc & msgs & Hrun & Et). cbn [fst] in Et.
  destruct (exit_zero (su_sys S') (su_noise S') _ output t' q' _ Ho' Er' eq_refl) as (Hc' & msgs' & Hrun' & Et'). cbn [fst] in Et'.
  destruct (good_file S o h ld output t q u out msgs Ho Hc Hrun Et Hsz Er) as (ix & F1 & F2 & F3 & F4 & F5).
  destruct (good_file S' o h' ld' output t' q' u' out' msgs' Ho' Hc' Hrun' Et' Hsz' Er') as (ix' & F1' & F2' & F3' & F4' & F5').
  exists (bytes_of_messages msgs), (bytes_of_messages msgs'), ix, ix'. do 4 (split; [done|]).
  destruct (loaded_run _ _ _ _ _ _ Hld Hrun) as (h0 & roots & all & proj & Ha & L & ->). destruct (loaded_run _ _ _ _ _ _ Hld' Hrun') as (h0' & roots' & all' & proj' & Ha' & L' & ->).
  pose proof (Hm o h0' roots' h' all' proj' Eo' Ha' L') as (Hmo & _).
  rewrite (sc_packages _ _ _ _ Hsc), Ha in Ha'. injection Ha' as <- <-. rewrite (sc_world _ _ _ _ Hsc), (sc_builtin _ _ _ _ Hsc) in L'.
  apply rc_load_packages_back in L' as (h1 & -> & L').
  destruct (kept_run rc S S' f Hsc o h0 roots h1 all' proj' _ msgs' Eo Ha L' Hmo Hrun') as (msgs1 & Hrun1 & Hrel).
  destruct (Hg o h0 roots h all proj Eo Ha L) as (P & <- & <- & <- & G). assert (HP : loaded_by S f o P) by (by exists h0, roots).
  destruct (tables_once _ _ _ _ roots (gg_input _ _ _ _ _ G) (proj1 Hb o h0 roots Eo Ha) _ _ _ _ _ _ L L') as [<- <-].
  rewrite <-(second_run S (kept rc S S') f Hg o h0 roots _ _ _ _ Eo Ha L L') in Hrun1.
  destruct (same_parts _ _ (runs_agree S (kept rc S S') f (kept_same rc S S') Hk Hb o P _ _ _ _ HP Hrun Hrun1)) as [H1 H2].
  destruct (recommented_parts _ _ _ _ Hrel) as [H3 H4].
  split; [by rewrite F3, F3', (sc_tool _ _ _ _ Hsc)|]. rewrite F4, F4', F5, F5'. split.
  - clear -H1 H3. revert H3. generalize (documents msgs'). induction H1 as [|d d1 l l1 Hd _ IH]; intros l' H3; [by inversion H3|].
    inversion H3 as [|? d' ? l2 Hd' H4]; subst. constructor; [by eapply same_recommented|by apply IH].
  - rewrite <-H4. by apply Permutation_map.
Qed.
Print Assumptions C83_same_index.

(** ... also if the files were put at other positions of the FileSet (longer comments make longer files, and the order in
    which files are parsed can change): [S1] is the project with the new comments at the old positions, [S'] at the new ones. *)
Lemma seen_iterate mv back S S' f : same_but_positions mv back S S' f → maps_iterate S' f → maps_iterate (seen mv back S S') f.
Proof.
  intros Hsp Hm o h0 roots h all proj Ho Ha L. cbn [seen su_iteration su_machine su_packages su_world su_builtin] in *.
  apply back_iteration_ok; [by apply (sp_move _ _ _ _ _ Hsp)|]. eapply Hm; [rewrite (sp_machine _ _ _ _ _ Hsp); exact Ho| |].
  - by rewrite (sp_packages _ _ _ _ _ Hsp), Ha.
  - rewrite (sp_world _ _ _ _ _ Hsp), (sp_builtin _ _ _ _ _ Hsp). by apply mv_load_packages.
Qed.
Theorem C83_moved : ∀ rc mv back S S1 S' f output t t' q q' u u' out out',
  same_but_comments rc S S1 f → same_but_positions mv back S1 S' f → go_works S f → go_builds S f → maps_iterate S' f →
  regular_output t output q → regular_output t' output q' →
  scip_go S f output t (u, out, Exit 0 None) → scip_go S' f output t' (u', out', Exit 0 None) →
  (∀ c, u !! q = Some (FReg c) → (Z.of_nat (slen c) < 2 ^ 63)%Z) → (∀ c, u' !! q' = Some (FReg c) → (Z.of_nat (slen c) < 2 ^ 63)%Z) →
  ∃ c c' ix ix', u !! q = Some (FReg c) ∧ u' !! q' = Some (FReg c') ∧ read_index c = Some ix ∧ read_index c' = Some ix' ∧
    recommented_scip (su_fs S) (su_fs S1) ix ix'.
Proof.
  intros rc mv back S S1 S' f output t t' q q' u u' out out' Hsc Hsp Hg Hb Hm Ho Ho' Hr Hr' Hsz Hsz'.
  refine (C83_same_index rc S (seen mv back S1 S') f output t t' q q' u u' out out' _ Hg Hb _ Ho Ho' Hr _ Hsz Hsz').
  - destruct Hsc. by split.
  - by apply (seen_iterate mv back).
  - by apply seen_command.
Qed.
Print Assumptions C83_moved.

(** ... and if the comments only change in place (the text stays at its lines and columns), then all ranges are the same:
    the occurrences differ in their diagnostics only. *)
Definition undiagnosed (o : occurrence) : occurrence := Occ (oc_range o) (oc_symbol o) (oc_roles o) (oc_enclosing o) [].
Lemma same_text_refl fs r r' : same_text fs fs r r' → r' = r.
Proof. by destruct 1. Qed.
Theorem C83_in_place : ∀ fs ix ix', recommented_scip fs fs ix ix' →
  si_meta ix' = si_meta ix ∧ map d_path (si_docs ix') = map d_path (si_docs ix) ∧
  map (λ d, map undiagnosed (d_occs d)) (si_docs ix') = map (λ d, map undiagnosed (d_occs d)) (si_docs ix).
Proof.
  intros fs ix ix' (H1 & H2 & _). split; [done|]. induction H2 as [|d d' l l' (Hp & Ho & _) _ [IH1 IH2]]; [done|]. cbn. rewrite Hp, IH1, IH2. split; [done|]. f_equal.
  clear -Ho. induction Ho as [|o o' m m' (E1 & E2 & E3 & E4) _ IH]; [done|]. cbn. rewrite IH. f_equal. unfold undiagnosed.
  by rewrite E1, E2, (same_text_refl _ _ _ E3), (same_text_refl _ _ _ E4).
Qed.
Print Assumptions C83_in_place.
