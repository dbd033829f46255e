(** C76 for the whole command: `scip-go index` with and without --skip-implementations. *)
From Coq Require Import Ascii String.
From stdpp Require Import prelude strings gmap sorting.
From Verif Require Import GoStr Scip GoTypes Ast Packages Symbols Document Lookup Pass1 Pass2 Paths Env Loader Index
  SpecSymbol SpecDecl SpecLookup SpecOcc SpecIndex P_Symbols P_Pass1 P_Link P_Lookup P_Pass2 P_Occ P_Loader PropLoader P_Index PropIndex
  Quote Fingerprint SpecTypes P_Finger PropFinger Impls P_Rel P_Ident SpecImpl P_Filter P_Mem P_Extract P_Impl PropImpl PropDet
  Output Proto Cli PropCli Options PropOptions Url PropUrl PropCross PropMember Program PropPrecise PropEnd PropSkip PropFind P_Once PropOnce.
Open Scope string_scope.
Open Scope list_scope.

(** *** Specification *)
(** the same flags and --skip-implementations (or --skip-implementations=[b]) *)
Definition skipping (b : bool) (f : flags) : flags :=
  Flags (fl_module_root f) (fl_repository_remote f) (fl_module_path f) (fl_module_version f) (fl_go_version f)
    (fl_quiet f) (fl_verbose f) b (fl_skip_tests f) (fl_patterns f).
(** The command line is another one, the rest of the machine is the same. *)
Definition with_args (mc : machine) (args : list string) : machine :=
  Machine (mc_wd mc) (mc_toplevel mc) (mc_stat mc) (mc_remote mc) (mc_tags mc) (mc_rev mc) (mc_go_list mc) (mc_decode mc)
    (mc_gomod mc) (mc_roots mc) (mc_driver mc) args.
(** the options that the flag gives: all the others are the same *)
Definition skipping_opts (b : bool) (args : list string) (o : run_opts) : run_opts :=
  let i := ro_index o in
  ROpts (IOpts (io_module_root i) (io_module_version i) (io_module_path i) (io_go_version i) (io_indexing_stdlib i) (io_driver_set i) b args)
    (ro_skip_tests o) (ro_patterns o).
(** The second run reads the same, apart from its own command line; the go command does not see the flag. *)
Record same_but_flag (b : bool) (args : list string) (S S' : surroundings) : Prop := SameButFlag {
  sb_machine : su_machine S' = with_args (su_machine S) args; sb_world : su_world S = su_world S';
  sb_packages : ∀ o, su_packages S' (skipping_opts b args o) = su_packages S o;
  sb_builtin : su_builtin S = su_builtin S'; sb_fs : su_fs S = su_fs S'; sb_env : su_env S = su_env S'; sb_mset : su_mset S = su_mset S';
  sb_constraint : su_constraint S = su_constraint S'; sb_level : su_package_level S = su_package_level S'; sb_scope : su_scope S = su_scope S';
  sb_objstr : su_objstr S = su_objstr S'; sb_unicode : su_unicode S = su_unicode S'; sb_crc : su_crc S = su_crc S';
  sb_digest : su_digest S = su_digest S'; sb_tool : su_tool S = su_tool S' }.
(** [ix'] is [ix] without the relationships and the external symbols; the metadata tells the command line *)
Definition unrelated_scip (args : list string) (ix ix' : scip_index) : Prop :=
  md_root (si_meta ix') = md_root (si_meta ix) ∧ md_tool (si_meta ix') = md_tool (si_meta ix) ∧
  md_version (si_meta ix') = md_version (si_meta ix) ∧ md_args (si_meta ix') = args ∧
  Forall2 unrelated_document (si_docs ix) (si_docs ix') ∧ si_exts ix' = [].

(** *** The options *)
Lemma options_skip mc f b args : make_options (with_args mc args) (skipping b f) =
  match make_options mc f with Ok (Some o) => Ok (Some (skipping_opts b args o)) | Ok None => Ok None | Panic m => Panic m end.
Proof.
  unfold make_options. change (default_module_version (with_args mc args)) with (default_module_version mc).
  change (default_go_version (with_args mc args)) with (default_go_version mc).
  destruct (default_module_version mc) as [v|]; [|done]. destruct (default_go_version mc) as [gv|]; [|done]. cbn [res_bind].
  change (path_abs (with_args mc args)) with (path_abs mc).
  change (default_module_root (with_args mc args)) with (default_module_root mc).
  cbn [fl_module_root skipping fl_quiet fl_verbose fl_repository_remote fl_module_path].
  destruct (path_abs mc _) as [root|]; [|done].
  destruct (get_log_level _ _) as [l|]; [|done]. cbn [res_bind].
  change (mc_roots (with_args mc args)) with (mc_roots mc). change (mc_gomod (with_args mc args)) with (mc_gomod mc).
  change (default_repository_remote (with_args mc args)) with (default_repository_remote mc).
  destruct (module_name _ _ _ _) as [[[path std]|]|]; [|done|done]. reflexivity.
Qed.

(** *** Loading does not read the flag *)
Section Load.
Context (o o' : index_opts) (w : world) (Hn : ∀ p, normalize_package o w p = normalize_package o' w p).
Lemma lstep_same s s' : lstep o w s s' → lstep o' w s s'.
Proof. intros [h t p g st H1 H2|h t p g g' order st H1 H2 H3 H4]; [by eapply L_skip|]. eapply L_visit; try done. by rewrite <-Hn. Qed.
Lemma lsteps_same s s' : rtc (lstep o w) s s' → rtc (lstep o' w) s s'.
Proof. induction 1 as [|x y z H _ IH]; [by apply rtc_refl|]. eapply rtc_l; [by apply lstep_same|done]. Qed.
Lemma loop_same h t pj ps h' t' pj' : load_loop o w h t pj ps h' t' pj' → load_loop o' w h t pj ps h' t' pj'.
Proof. induction 1 as [|h t pj p ps h1 t1 g q h2 t2 pj2 H1 H2 H3 _ IH]; [constructor|]. eapply LL_cons; try done. by apply lsteps_same. Qed.
Lemma panics_same h t ps m : load_panics o w h t ps m → load_panics o' w h t ps m.
Proof.
  induction 1 as [h t p ps h1 t1 q st g m H1 H2 H3 H4|h t p ps h1 t1 m H1 _ IH].
  - eapply LP_here; [by apply lsteps_same|done|done|by rewrite <-Hn].
  - eapply LP_later; [by apply lsteps_same|done].
Qed.
End Load.
Definition iskip (b : bool) (args : list string) (i : index_opts) : index_opts :=
  IOpts (io_module_root i) (io_module_version i) (io_module_path i) (io_go_version i) (io_indexing_stdlib i) (io_driver_set i) b args.
Lemma normalize_skip b args i w p : normalize_package (with_default_version (iskip b args i)) w p = normalize_package (with_default_version i) w p.
Proof. reflexivity. Qed.
Lemma load_skip b args i w bp h0 roots h all proj :
  load_packages (iskip b args i) w bp h0 roots h all proj ↔ load_packages i w bp h0 roots h all proj.
Proof.
  unfold load_packages. change (builtin_pkg bp (with_default_version (iskip b args i))) with (builtin_pkg bp (with_default_version i)).
  split; apply loop_same; intros p; by rewrite normalize_skip.
Qed.
Lemma panics_skip b args i w bp h t ps m : load_panics (with_default_version (iskip b args i)) w (<[bp := builtin_pkg bp (with_default_version (iskip b args i))]> h) t ps m →
  load_panics (with_default_version i) w (<[bp := builtin_pkg bp (with_default_version i)]> h) t ps m.
Proof. apply panics_same. intros p. by rewrite normalize_skip. Qed.

(** *** The two runs *)
Section Two.
Context (b : bool) (args : list string) (S S' : surroundings) (f : flags) (Hss : same_but_flag b args S S').
Context (Hg : go_works S f) (Hg' : go_works S' (skipping b f)).
Lemma options_other o : make_options (su_machine S) f = Ok (Some o) → make_options (su_machine S') (skipping b f) = Ok (Some (skipping_opts b args o)).
Proof. intros E. by rewrite (sb_machine _ _ _ _ Hss), options_skip, E. Qed.
Lemma flag_second_run o h0 roots h h' all proj : make_options (su_machine S) f = Ok (Some o) → su_packages S o = inr (h0, roots) →
  load_packages (ro_index o) (su_world S) (su_builtin S) h0 roots h all proj → load_packages (ro_index o) (su_world S) (su_builtin S) h0 roots h' all proj →
  ∀ w, program_run S' (skipping_opts b args o) h (LoadOk all proj) w = program_run S' (skipping_opts b args o) h' (LoadOk all proj) w.
Proof.
  intros Ho Ha L L' w. destruct (Hg o h0 roots h all proj Ho Ha L) as (P & _ & _ & _ & G).
  destruct (heaps_once (ro_index o) (su_world S) (su_builtin S) h0 roots (gg_input _ _ _ _ _ G) h all proj h' L L') as [Hsm Heq].
  unfold program_run. by apply index_same.
Qed.
Lemma flag_second_on_first o P : loaded_by S f o P → iteration_ok (pr_heap P) (pr_all P) (pr_proj P) (su_iteration S').
Proof.
  intros (h0 & roots & Ho & Ha & L & G).
  destruct (Hg' (skipping_opts b args o) h0 roots (pr_heap P) (pr_all P) (pr_proj P)) as (P' & <- & <- & <- & G').
  - by apply options_other.
  - by rewrite (sb_packages _ _ _ _ Hss).
  - rewrite <-(sb_world _ _ _ _ Hss), <-(sb_builtin _ _ _ _ Hss). by apply (proj2 (load_skip b args (ro_index o) _ _ _ _ _ _ _)).
  - by destruct G'.
Qed.
End Two.

Definition run_with (S : surroundings) (o : run_opts) (P : project) (it : iteration) (b : bool) (meta : metadata) (w : writer) : list message * Index.outcome :=
  Index.index (su_digest S) (pr_env P) (pr_fs P) (pr_heap P) (su_objstr S) (it_maps it) w
    (impl_phase (pr_env P) (su_unicode S) (su_crc S) (su_mset S) (su_constraint S) (su_package_level S) (su_scope S) (it_search it) (pr_heap P) (pr_proj P) (pr_all P))
    "" (io_module_root (ro_index o)) (io_module_version (ro_index o)) b meta (LoadOk (pr_all P) (pr_proj P)) (it_proj it) (it_all it) (it_proj2 it).
Lemma run_other b args S S' f o P w : same_but_flag b args S S' → loaded_by S f o P →
  program_run S' (skipping_opts b args o) (pr_heap P) (LoadOk (pr_all P) (pr_proj P)) w =
  run_with S o P (su_iteration S') b (index_metadata (su_tool S) (iskip b args (ro_index o))) w.
Proof.
  intros Hss (h0 & roots & Ho & Ha & L & G). unfold program_run, run_with. destruct Hss.
  rewrite <-sb_digest0, <-sb_env0, <-sb_fs0, <-sb_objstr0, <-sb_unicode0, <-sb_crc0, <-sb_mset0, <-sb_constraint0, <-sb_level0, <-sb_scope0, <-sb_tool0.
  rewrite <-(gg_env _ _ _ _ _ G), <-(gg_fs _ _ _ _ _ G). reflexivity.
Qed.
Lemma run_this S f o P w : loaded_by S f o P → io_skip_impls (ro_index o) = false →
  program_run S o (pr_heap P) (LoadOk (pr_all P) (pr_proj P)) w = run_with S o P (su_iteration S) false (index_metadata (su_tool S) (ro_index o)) w.
Proof.
  intros (h0 & roots & Ho & Ha & L & G) Hs. unfold program_run, run_with. rewrite <-(gg_env _ _ _ _ _ G), <-(gg_fs _ _ _ _ _ G), Hs. reflexivity.
Qed.

Lemma unmarshal_unrelated ds ds' : Forall2 unrelated_document ds ds' → Forall (λ d, is_Some (marshal (MDoc d))) ds → Forall (λ d, is_Some (marshal (MDoc d))) ds'.
Proof.
  induction 1 as [|d d' l l' (Hp & Hocc & Hsym) _ IH]; intros Hd; [constructor|]. apply List.Forall_cons_iff in Hd as [Hd Hl]. constructor; [|by apply IH].
  cbn [marshal] in *. assert (Hu : doc_utf8 d = true) by (destruct (doc_utf8 d); [done|by destruct Hd]).
  assert (doc_utf8 d' = true) as ->; [|by eexists]. unfold doc_utf8 in *. rewrite Hp, Hocc.
  apply andb_true_iff in Hu as [Hu1 Hu2]. apply andb_true_iff. split; [done|].
  rewrite forallb_forall in Hu2 |- *. intros x Hx. apply elem_of_list_In in Hx. rewrite Hsym in Hx. apply elem_of_list_fmap in Hx as (i & -> & Hi).
  apply elem_of_list_In in Hi. apply Hu2 in Hi. unfold info_utf8 in *. cbn [unrelated i_symbol i_documentation i_relationships i_display_name i_signature i_enclosing forallb] in *.
  destruct (valid_utf8 (i_symbol i)), (forallb valid_utf8 (i_documentation i)), (forallb _ (i_relationships i)); try done.
Qed.

(** What a project needs is built once (P_Once.v): the first part of go_builds. *)
Definition builds_once (S : surroundings) (f : flags) : Prop :=
  ∀ o h0 roots, make_options (su_machine S) f = Ok (Some o) → su_packages S o = inr (h0, roots) → one_build h0 roots.

(** C76: when `scip-go index` succeeds without --skip-implementations and with it, in the same surroundings, the second
    index is the first one without the relationships and the external symbols; only the recorded command line differs. *)
Theorem C76_whole_command : ∀ args S S' f output t t' q q' u u' out out',
  same_but_flag true args S S' → go_works S f → go_works S' (skipping true f) → builds_once S f → fl_skip_implementations f = false →
  regular_output t output q → regular_output t' output q' →
  scip_go S f output t (u, out, Exit 0 None) → scip_go S' (skipping true f) output t' (u', out', Exit 0 None) →
  (∀ c, u !! q = Some (FReg c) → (Z.of_nat (slen c) < 2 ^ 63)%Z) → (∀ c, u' !! q' = Some (FReg c) → (Z.of_nat (slen c) < 2 ^ 63)%Z) →
  ∃ c c' ix ix', u !! q = Some (FReg c) ∧ u' !! q' = Some (FReg c') ∧ read_index c = Some ix ∧ read_index c' = Some ix' ∧ unrelated_scip args ix ix'.
Proof.
  intros args S S' f output t t' q q' u u' out out' Hss Hg Hg' Hb Hf Ho Ho' Hr Hr' Hsz Hsz'.
  inversion Hr as [| |o h ld Eo Hld Er]. inversion Hr' as [| |o' h' ld' Eo' Hld' Er'].
  assert (o' = skipping_opts true args o) as ->. { rewrite (options_other true args S S' f Hss o Eo) in Eo'. congruence. }
  destruct (exit_zero (su_sys S) (su_noise S) _ output t q _ Ho Er eq_refl) as (Hc & msgs & Hrun & Et). cbn [fst] in Et.
  destruct (exit_zero (su_sys S') (su_noise S') _ output t' q' _ Ho' Er' eq_refl) as (Hc' & msgs' & Hrun' & Et'). cbn [fst] in Et'.
  destruct (good_file S o h ld output t q u out msgs Ho Hc Hrun Et Hsz Er) as (ix & F1 & F2 & F3 & F4 & F5).
  destruct (good_file S' (skipping_opts true args o) h' ld' output t' q' u' out' msgs' Ho' Hc' Hrun' Et' Hsz' Er') as (ix' & F1' & F2' & F3' & F4' & F5').
  exists (bytes_of_messages msgs), (bytes_of_messages msgs'), ix, ix'. do 4 (split; [done|]).
  destruct (loaded_run _ _ _ _ _ _ Hld Hrun) as (h0 & roots & all & proj & Ha & L & ->). destruct (loaded_run _ _ _ _ _ _ Hld' Hrun') as (h0' & roots' & all' & proj' & Ha' & L' & ->).
  rewrite (sb_packages _ _ _ _ Hss), Ha in Ha'. injection Ha' as <- <-. rewrite <-(sb_world _ _ _ _ Hss), <-(sb_builtin _ _ _ _ Hss) in L'.
  apply (proj1 (load_skip true args (ro_index o) _ _ _ _ _ _ _)) in L'.
  destruct (Hg o h0 roots h all proj Eo Ha L) as (P & <- & <- & <- & G). assert (HP : loaded_by S f o P) by (by exists h0, roots).
  destruct (tables_once _ _ _ _ roots (gg_input _ _ _ _ _ G) (Hb o h0 roots Eo Ha) _ _ _ _ _ _ L L') as [<- <-].
  rewrite <-(flag_second_run true args S S' f Hg o h0 roots _ _ _ _ Eo Ha L L') in Hrun'.
  rewrite (run_other true args S S' f o P _ Hss HP) in Hrun'.
  assert (Hsk : io_skip_impls (ro_index o) = false). { destruct (C60_flags_win _ _ _ Eo) as (_ & _ & _ & _ & _ & -> & _). exact Hf. }
  rewrite (run_this S f o P _ HP Hsk) in Hrun.
  pose proof (guarantees_indexable _ _ _ _ HP) as Hix. pose proof (gg_analysable _ _ _ _ _ G) as Han. rewrite <-(gg_env _ _ _ _ _ G) in Han.
  destruct (skip_parts (su_digest S) (pr_env P) (su_unicode S) (su_crc S) (su_mset S) (su_constraint S) (pr_objs P) (su_package_level S) (su_scope S)
    (pr_fs P) (su_objstr S) _ _ (pr_heap P) (pr_all P) (pr_proj P) (pr_pkgs P) Hix Han "" _ _ _ _ _ _ _ _ (gg_iteration _ _ _ _ _ G) (flag_second_on_first true args S S' f Hss Hg' o P HP) Hrun Hrun')
    as (ds & ds' & exts & -> & -> & HF).
  rewrite documents_msgs in F4. unfold unrelated_scip. rewrite F3, F3', F4.
  pose proof (documents_msgs (index_metadata (su_tool S) (iskip true args (ro_index o))) ds' []) as E. cbn [map] in E. rewrite List.app_nil_r in E.
  pose proof (externals_msgs (index_metadata (su_tool S) (iskip true args (ro_index o))) ds' []) as E'. cbn [map] in E'. rewrite List.app_nil_r in E'.
  rewrite F4', F5', E, E'. by rewrite <-(sb_tool _ _ _ _ Hss).
Qed.
Print Assumptions C76_whole_command.

(** ... and if it succeeds without the flag then it succeeds with it, unless the system reports an error for the output
    or the command line is not valid UTF-8. *)
Theorem C76_still_succeeds : ∀ args S S' f output t t' q q' u out u' out' e,
  same_but_flag true args S S' → go_works S f → go_works S' (skipping true f) → builds_once S f → fl_skip_implementations f = false →
  regular_output t output q → regular_output t' output q' →
  sy_create (su_sys S') = None → (∀ n, sy_write (su_sys S') n = None) → Forall (λ a, valid_utf8 a = true) args →
  scip_go S f output t (u, out, Exit 0 None) → scip_go S' (skipping true f) output t' (u', out', e) → e = Exit 0 None.
Proof.
  intros args S S' f output t t' q q' u out u' out' e Hss Hg Hg' Hb Hf Ho Ho' Hcr Hwr Hargs Hr Hr'.
  inversion Hr as [| |o h ld Eo Hld Er]. pose proof (options_other true args S S' f Hss o Eo) as Eo2.
  apply scip_go_cases in Hr' as [(m & Em & _)|[(e' & Em & _)|(o' & h' & ld' & Eo' & Hld' & Er')]]; [congruence..|].
  assert (o' = skipping_opts true args o) as -> by congruence.
  destruct (exit_zero (su_sys S) (su_noise S) _ output t q _ Ho Er eq_refl) as (Hc & msgs & Hrun & Et).
  destruct (loaded_run _ _ _ _ _ _ Hld Hrun) as (h0 & roots & all & proj & Ha & L & ->).
  pose proof (Hg o h0 roots h all proj Eo Ha L) as (P & <- & <- & <- & G). assert (HP : loaded_by S f o P) by (by exists h0, roots).
  rewrite (sb_packages _ _ _ _ Hss), <-(sb_world _ _ _ _ Hss), <-(sb_builtin _ _ _ _ Hss) in Hld'.
  assert (∃ h1, h' = h1 ∧ ld' = LoadOk (pr_all P) (pr_proj P) ∧ load_packages (ro_index o) (su_world S) (su_builtin S) h0 roots h1 (pr_all P) (pr_proj P)) as (h1 & -> & -> & L').
  { destruct Hld' as [e0 h' Ha'|h0' roots' m h' Ha' Hp|h0' roots' h' all' proj' Ha' L']; rewrite Ha in Ha'; [done| |]; injection Ha' as <- <-.
    - exfalso. apply (panics_skip true args (ro_index o)) in Hp.
      by eapply (panics_once (ro_index o) (su_world S) (su_builtin S) h0 roots (gg_input _ _ _ _ _ G) (Hb o h0 roots Eo Ha)).
    - apply (proj1 (load_skip true args (ro_index o) _ _ _ _ _ _ _)) in L'.
      destruct (tables_once _ _ _ _ roots (gg_input _ _ _ _ _ G) (Hb o h0 roots Eo Ha) _ _ _ _ _ _ L L') as [<- <-]. by exists h'. }
  pose proof (run_marshals _ _ _ _ _ _ _ Hrun) as Hmar.
  assert (Hsk : io_skip_impls (ro_index o) = false). { destruct (C60_flags_win _ _ _ Eo) as (_ & _ & _ & _ & _ & -> & _). exact Hf. }
  rewrite (run_this S f o P _ HP Hsk) in Hrun.
  pose proof (guarantees_indexable _ _ _ _ HP) as Hix. pose proof (gg_analysable _ _ _ _ _ G) as Han. rewrite <-(gg_env _ _ _ _ _ G) in Han.
  pose proof (gg_iteration _ _ _ _ _ G) as I1. pose proof (flag_second_on_first true args S S' f Hss Hg' o P HP) as I2.
  set (meta' := index_metadata (su_tool S) (iskip true args (ro_index o))).
  destruct (C76_always_succeeds (su_digest S) (pr_env P) (su_unicode S) (su_crc S) (su_mset S) (su_constraint S) (pr_objs P) (su_package_level S) (su_scope S)
    (pr_fs P) (su_objstr S) (io_module_root (ro_index o)) (io_module_version (ro_index o)) (pr_heap P) (pr_all P) (pr_proj P) (pr_pkgs P) Hix Han "" meta' _ _ I1 I2) as (ds' & E2 & _).
  destruct (skip_parts (su_digest S) (pr_env P) (su_unicode S) (su_crc S) (su_mset S) (su_constraint S) (pr_objs P) (su_package_level S) (su_scope S)
    (pr_fs P) (su_objstr S) _ _ (pr_heap P) (pr_all P) (pr_proj P) (pr_pkgs P) Hix Han "" _ _ _ _ _ _ _ _ I1 I2 Hrun E2)
    as (ds & ds2 & exts & -> & Em & HF).
  assert (ds2 = ds') as ->. { apply (f_equal documents) in Em. pose proof (documents_msgs meta' ds' []) as X. pose proof (documents_msgs meta' ds2 []) as Y. cbn [map] in X, Y. rewrite List.app_nil_r in X, Y. congruence. }
  assert (Hmar' : Forall (λ m, is_Some (marshal m)) (MMeta meta' :: map MDoc ds')).
  { apply List.Forall_cons_iff in Hmar as [Hm1 Hmar]. apply Forall_app in Hmar as [Hmar _]. constructor.
    - cbn [marshal] in *. assert (meta_utf8 meta' = true) as ->; [|by eexists].
      assert (Hu : meta_utf8 (index_metadata (su_tool S) (ro_index o)) = true) by (destruct (meta_utf8 _); [done|by destruct Hm1]).
      unfold meta_utf8 in Hu |- *. unfold meta'. cbn [index_metadata md_root md_tool md_version md_args iskip io_module_root io_arguments] in *.
      apply andb_true_iff in Hu as [-> _]. apply forallb_forall. intros a Hin. rewrite Forall_forall in Hargs. apply Hargs. by apply elem_of_list_In.
    - rewrite List.Forall_map in *. by eapply unmarshal_unrelated. }
  assert (program_run S' (skipping_opts true args o) h1 (LoadOk (pr_all P) (pr_proj P)) (cli_writer (sy_write (su_sys S'))) = (MMeta meta' :: map MDoc ds', Returned None)) as Hrun2.
  { rewrite <-(flag_second_run true args S S' f Hg o h0 roots _ _ _ _ Eo Ha L L').
    eapply program_written; [rewrite (run_other true args S S' f o P _ Hss HP); exact E2|]. intros pre m post Em'. rewrite Em' in Hmar'. apply Forall_app in Hmar' as [_ Hmar'].
    apply List.Forall_cons_iff in Hmar' as [[b1 Hb1] _]. unfold cli_writer. by rewrite Hb1, Hwr. }
  destruct (C40_success (su_sys S') (su_noise S') _ output t' q' _ Ho' Hcr Hrun2) as [out1 E]. rewrite E in Er'. by injection Er' as _ _ <-.
Qed.
Print Assumptions C76_still_succeeds.
