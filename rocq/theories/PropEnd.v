(** C64: the whole `scip-go index` command, from the command line to the bytes of the output file. *)
From Coq Require Import Ascii String.
From stdpp Require Import prelude strings gmap sorting.
From Verif Require Import GoStr Scip GoTypes Packages Symbols Document Lookup Pass1 Pass2 Paths Env
  Loader Index Ast SpecSymbol SpecDecl SpecLookup SpecOcc SpecIndex
  P_Symbols P_Pass1 P_Link P_Lookup P_Pass2 P_Occ P_Scope P_Index P_Doc PropSymbols PropDecl PropOcc PropIndex PropLoader P_Loader P_Load
  Output Proto P_Proto PropProto P_Fits Cli PropCli Options PropPaths PropOptions Url PropUrl
  Fingerprint SpecTypes P_Finger PropFinger Impls SpecImpl P_Impl PropImpl PropDet PropCross PropNav PropMember Program.
Open Scope string_scope.
Open Scope list_scope.

(** *** Specification *)
(** What go list, go/types and the Go runtime guarantee about a run with the flags f: the packages given by
    packages.Load form a closed graph, are type-checked where they have syntax, and maps are iterated over
    in some order.  P: the loaded project. *)
Record go_guarantees (S : surroundings) (o : run_opts) (h0 : pheap) (roots : list nat) (P : project) : Prop := GoGuarantees {
  gg_input : load_input (su_builtin S) h0 roots;
  (** the variants of a package belong to one module; a package called builtin has files *)
  gg_module : ∀ p q g g', h0 !! p = Some g → h0 !! q = Some g' → p_path g = p_path g' → p_module g = p_module g';
  gg_builtin : ∀ p g, h0 !! p = Some g → p_path g = "builtin" → p_syntax g ≠ [];
  gg_env : pr_env P = su_env S; gg_fs : pr_fs P = su_fs S;
  gg_order : project_in_order (pr_heap P) (pr_proj P) (pr_pkgs P);
  gg_typed : typed_project (pr_objs P) (pr_fs P) (pr_heap P) (pr_pkgs P);
  gg_idents : ∀ p f name i, p ∈ pr_pkgs P → f ∈ p_syntax p → file_of (pr_fs P) f name →
    NIdent i ∈ subnodes f → fs_file (pr_fs P) (id_pos i) = Some name;
  gg_analysable : analysable (su_env S) (su_mset S) (pr_objs P) (su_scope S) (pr_heap P) (pr_all P) (pr_proj P);
  gg_iteration : iteration_ok (pr_heap P) (pr_all P) (pr_proj P) (su_iteration S) }.
(** every load that succeeds gives such a project *)
Definition go_works (S : surroundings) (f : flags) : Prop :=
  ∀ o h0 roots h all proj, make_options (su_machine S) f = Ok (Some o) → su_packages S o = inr (h0, roots) →
    load_packages (ro_index o) (su_world S) (su_builtin S) h0 roots h all proj →
    ∃ P, pr_heap P = h ∧ pr_all P = all ∧ pr_proj P = proj ∧ go_guarantees S o h0 roots P.

(** P is a project that a run with flags f loads, with options o *)
Definition loaded_by (S : surroundings) (f : flags) (o : run_opts) (P : project) : Prop :=
  ∃ h0 roots, make_options (su_machine S) f = Ok (Some o) ∧ su_packages S o = inr (h0, roots) ∧
    load_packages (ro_index o) (su_world S) (su_builtin S) h0 roots (pr_heap P) (pr_all P) (pr_proj P) ∧
    go_guarantees S o h0 roots P.

(** [ds]: the documents of an index of P, one for every file of P, in order *)
Definition has_definition (P : project) (ds : list document) (p : gpkg) (f : node) (i : Ast.ident) (s : string) : Prop :=
  ∃ d o, document_of (pr_pkgs P) ds p f d ∧ o ∈ d_occs d ∧ oc_roles o = role_definition ∧
    oc_symbol o = s ∧ oc_range o = ident_span (pr_fs P) i.
Definition has_reference (P : project) (ds : list document) (p : gpkg) (f : node) (i : Ast.ident) (s : string) : Prop :=
  ∃ d o, document_of (pr_pkgs P) ds p f d ∧ o ∈ d_occs d ∧ oc_roles o = role_read_access ∧
    oc_symbol o = s ∧ oc_range o = ident_span (pr_fs P) i.
(** the index ix is right for P: the documents are those of the files, in order; every declaration is defined under its
    documented symbol, where it is declared, and every use of it refers to that symbol *)
Record right_index (o : run_opts) (P : project) (ix : scip_index) : Prop := RightIndex {
  ri_root : ∃ root, Forall PropPaths.name_ok root ∧ names_file (md_root (si_meta ix)) (abs_path root) ∧
    (** from that directory, the path of a document leads to its file *)
    ∀ p f d file, document_of (pr_pkgs P) (si_docs ix) p f d → file_of (pr_fs P) f (abs_path file) → Forall PropPaths.name_ok file →
      walk root (split_on "/" (d_path d)) = file;
  ri_files : length (si_docs ix) = length (files_in_order (pr_pkgs P));
  ri_declarations : ∀ p f i k, declaration P p f i k → ∃ m, p_module p = Some m ∧
    has_definition P (si_docs ix) p f i (key_symbol (p_path p) m k) ∧
    (p_path p ≠ "unsafe" → ∀ p2 f2 i2, use_of P p (id_pos i) p2 f2 i2 →
       has_reference P (si_docs ix) p2 f2 i2 (key_symbol (p_path p) m k)) }.

(** *** Proofs *)
Lemma declaration_registers digest P p f i k m : p_module p = Some m → declaration P p f i k → registers digest P p i (key_symbol (p_path p) m k) ∧ below_decl f i.
Proof.
  intros Hm [Hp Hf (par & Hd & Hpar) Hwf Hv Hpos Hnb _]. split.
  - intros ti tbl Hti Ht. destruct (declared_entry digest ti (pr_fs P) (pr_env P) p tbl i k par Hwf) as (m0 & info & e & Hm0 & Hl & Hs & _); [by exists f|done|done|done|].
    exists info. split; [done|]. congruence.
  - destruct Hd as (a & b & c & nm & decls & decl & -> & Hin & Hdd). exists a, b, c, nm, decls, decl. split; [done|]. split; [done|].
    assert (Hdecl : ∀ nm', file_declares (NFile 1 false "" nm' [decl]) i k par) by (intros nm'; eexists _, _, _, _, _, _; split; [done|]; split; [left|done]).
    destruct (declares_child _ _ _ _ (Hdecl (Ident 0 "" (-1)))) as [Hs _].
    apply subnodes_elem in Hs as [Hs|(c1 & Hc1 & Hs)]; [done|]. cbn in Hc1. apply elem_of_cons in Hc1 as [->|Hc1].
    + cbn in Hs. apply elem_of_list_singleton in Hs. injection Hs as ->. cbn in Hpos. lia.
    + apply elem_of_list_singleton in Hc1 as ->. unfold poss. apply elem_of_list_fmap. by exists (NIdent i).
Qed.
Lemma guarantees_indexable S f o P : loaded_by S f o P → indexable (pr_objs P) (pr_fs P) (pr_heap P) (pr_all P) (pr_proj P) (pr_pkgs P).
Proof.
  intros (h0 & roots & _ & _ & Hl & [Hi Hm Hb _ _ Ho Ht Hid _ _]). split; [|done|done|done].
  by eapply load_gives_project.
Qed.

Section Run.
Context (S : surroundings) (f : flags) (o : run_opts) (P : project) (HP : loaded_by S f o P).
Notation it := (su_iteration S).
Notation search := (impl_phase (su_env S) (su_unicode S) (su_crc S) (su_mset S) (su_constraint S) (su_package_level S)
  (su_scope S) (it_search it) (pr_heap P) (pr_proj P) (pr_all P)).
Lemma run_is w : program_run S o (pr_heap P) (LoadOk (pr_all P) (pr_proj P)) w =
  the_run (su_digest S) (pr_env P) (pr_fs P) (pr_heap P) (su_objstr S) (it_maps it) search "" (io_module_root (ro_index o))
    (io_module_version (ro_index o)) (io_skip_impls (ro_index o)) (index_metadata (su_tool S) (ro_index o)) (LoadOk (pr_all P) (pr_proj P))
    (it_proj it) (it_all it) (it_proj2 it) w.
Proof. destruct HP as (h0 & roots & _ & _ & _ & G). unfold program_run, the_run. by rewrite (gg_env _ _ _ _ _ G), (gg_fs _ _ _ _ _ G). Qed.
Lemma search_fine : impl_contract (pr_env P) (pr_objs P) (io_module_root (ro_index o)) (io_module_version (ro_index o)) (pr_heap P) (pr_all P) (pr_proj P) search.
Proof.
  destruct HP as (h0 & roots & _ & _ & _ & G). rewrite (gg_env _ _ _ _ _ G).
  apply search_contract; [by destruct G|]. by destruct (gg_iteration _ _ _ _ _ G) as (_ & ? & _).
Qed.
Lemma run_indexed w msgs : program_run S o (pr_heap P) (LoadOk (pr_all P) (pr_proj P)) w = (msgs, Returned None) → indexed_with (su_digest S) P msgs.
Proof.
  intros E. rewrite run_is in E. pose proof search_fine as Hs. pose proof (guarantees_indexable _ _ _ _ HP) as Hix.
  destruct HP as (h0 & roots & _ & _ & _ & G). destruct (gg_iteration _ _ _ _ _ G) as (I1 & I2 & I3 & I4 & I5).
  exists (su_objstr S), (it_maps it), (io_module_root (ro_index o)), (io_module_version (ro_index o)), search, "",
    (it_proj it), (it_all it), (it_proj2 it), (io_skip_impls (ro_index o)), (index_metadata (su_tool S) (ro_index o)), w.
  split_and!; done.
Qed.
Lemma run_right w msgs l : mc_wd (su_machine S) = Some (abs_path l) → Forall PropPaths.name_ok l →
  program_run S o (pr_heap P) (LoadOk (pr_all P) (pr_proj P)) w = (msgs, Returned None) →
  right_index o P (SIndex (index_metadata (su_tool S) (ro_index o)) (documents msgs) (externals msgs)).
Proof.
  intros Hw Hl E. pose proof (run_indexed _ _ E) as Hx. pose proof Hx as Hx'.
  pose proof (guarantees_indexable _ _ _ _ HP) as Hix. pose proof search_fine as Hs. rewrite run_is in E.
  destruct HP as (h0 & roots & Ho & _ & _ & G). destruct (gg_iteration _ _ _ _ _ G) as (I1 & I2 & I3 & I4 & I5).
  destruct (C38_emission_order (su_digest S) (pr_env P) (pr_objs P) (pr_fs P) (pr_heap P) (su_objstr S) (it_maps it) (io_module_root (ro_index o)) (io_module_version (ro_index o))
    (pr_all P) (pr_proj P) (pr_pkgs P) search "" (it_proj it) (it_all it) (it_proj2 it) (io_skip_impls (ro_index o)) _ w Hix I1 I3 I4 I5 Hs msgs E) as (ds & exts & Em & Hds).
  assert (Ed : documents msgs = ds) by by rewrite Em, documents_msgs.
  destruct (C60_root_absolute _ _ _ _ Hw Hl Ho) as (root & Hroot & Er). split; cbn [si_meta si_docs].
  - exists root. split; [done|]. rewrite <- Er. split; [exact (proj1 (C65_project_root _ l f o (su_tool S) Hw Hl Ho))|].
    intros p f' d file (n & Hn & Hd) Hf Hok. rewrite Ed in Hd. destruct (Forall2_lookup_lr _ _ _ _ _ _ Hds Hn Hd) as (name & Hname & Hpath). cbn in Hname.
    assert (name = abs_path file) as -> by (unfold file_of in *; congruence). rewrite Hpath, Er. by apply (C44_relative_path_resolves root file).
  - rewrite Ed. symmetry. by eapply Forall2_length.
  - intros p f' i k Hd. destruct (declaration_defined P msgs p f' i k) as (m & Hm & Hdef); [by eapply indexed_with_indexed|done|].
    exists m. split; [done|]. split; [exact Hdef|]. intros Hun p2 f2 i2 Hu.
    destruct (declaration_registers (su_digest S) P p f' i k m Hm Hd) as [Hr Hb].
    pose proof Hd as [Hp Hf _ Hwf _ Hpos _ (ti & def & Hti & _)].
    by eapply (registered_referred (su_digest S) P msgs Hx p f' ti i _ Hp Hf Hti Hwf Hb Hpos Hr p2 f2 i2 Hun Hu).
Qed.
End Run.

(** how a run can end with code 0 *)
Lemma exit_zero s no run output t q r : regular_output t output q → index_cmd s no None run output t = r → r.2 = Exit 0 None →
  sy_create s = None ∧ ∃ msgs, run (cli_writer (sy_write s)) = (msgs, Returned None) ∧ r.1.1 = <[q := FReg (bytes_of_messages msgs)]> t.
Proof.
  intros Ho E Hr. unfold index_cmd in E. rewrite (not_dash output) in E by apply Ho. unfold os_create in E.
  destruct (sy_create s) as [e|]; [subst r; done|]. destruct Ho as (_ & Hq & Hreg). rewrite Hq in E.
  assert (E' : ∃ u, (u = (<[q := FReg ""]> t : ftree)) ∧ r = (let '(msgs, o) := run (cli_writer (sy_write s)) in
            let t := append_to u q (bytes_of_messages msgs) in
            let out := stdout_text no 0 (length msgs) in
            match o with
            | Returned None => (t, out, Exit 0 None)
            | Crashed e => (t, out, Exit 2 (Some e))
            | Returned (Some e) =>
                let t := append_to t q (sy_partial s) in
                ((if stat_regular (sy_stat s) t output then os_remove (sy_remove s) t output else t),
                 out, Exit 1 (Some e))
            end)). { eexists. split; [reflexivity|]. destruct Hreg as [Hn|[c Hc]]; [by rewrite Hn in E|by rewrite Hc in E]. }
  destruct E' as (u & -> & ->). split; [done|]. destruct (run _) as [msgs o]. cbn in Hr. destruct o as [[e|]|e]; cbn in Hr; try done.
  exists msgs. split; [done|]. cbn [fst]. by rewrite append_reg, app_nil_l.
Qed.
Lemma options_fail s no e run output t : (index_cmd s no (Some e) run output t).2 = Exit 1 (Some e).
Proof. done. Qed.
Lemma load_failed_no_zero S o h e w msgs : program_run S o h (LoadFailed e) w = (msgs, Returned None) → False.
Proof. unfold program_run, Index.index. destruct (w [] _); [done|]. done. Qed.

Lemma load_failed_returns S o h e w : ∃ msgs err, program_run S o h (LoadFailed e) w = (msgs, Returned err).
Proof. unfold program_run, Index.index. destruct (w [] _); eauto. Qed.

(** C64: if `scip-go index` exits with code 0 and its output is a regular file (new or not), then that file, and
    nothing else, has changed, and it decodes to an index of the loaded project: a document for every file, a definition
    for every declaration, a reference for every use.  Sizes above 2^63 bytes are excluded. *)
Theorem C64_index_file : ∀ S f output t q t' out l,
  go_works S f → mc_wd (su_machine S) = Some (abs_path l) → Forall PropPaths.name_ok l → regular_output t output q →
  scip_go S f output t (t', out, Exit 0 None) →
  (∀ c, t' !! q = Some (FReg c) → (Z.of_nat (slen c) < 2 ^ 63)%Z) →
  (∀ p, p ≠ q → t' !! p = t !! p) ∧
  ∃ o P content ix, loaded_by S f o P ∧ t' !! q = Some (FReg content) ∧ read_index content = Some ix ∧ right_index o P ix ∧
    (** and it is an index in the sense of the other properties *)
    ∃ msgs, indexed_with (su_digest S) P msgs ∧ si_docs ix = documents msgs ∧ si_exts ix = externals msgs.
Proof.
  intros S f output t q t' out l Hg Hw Hl Ho Hr Hsz. inversion Hr as [| |o h ld Eo Hld Er].
  destruct (exit_zero (su_sys S) (su_noise S) _ output t q _ Ho Er eq_refl) as (Hc & msgs & Hrun & Et). cbn [fst] in Et.
  split. { intros p Hp. rewrite Et. by apply lookup_insert_ne. }
  destruct Hld as [e h Ha|h0 roots m h Ha Hp|h0 roots h all proj Ha Hload]; try (exfalso; by eapply load_failed_no_zero).
  destruct (Hg o h0 roots h all proj Eo Ha Hload) as (P & <- & <- & <- & G).
  assert (HP : loaded_by S f o P) by (by exists h0, roots).
  pose proof (run_right S f o P HP _ _ l Hw Hl Hrun) as Hri. pose proof (run_indexed S f o P HP _ _ Hrun) as Hx.
  assert (Hc' : t' !! q = Some (FReg (bytes_of_messages msgs))) by (rewrite Et; apply lookup_insert).
  pose proof Hrun as Hrun'. rewrite (run_is S f o P HP) in Hrun'.
  destruct (C40_success_decodes _ _ _ _ _ _ _ _ _ _ _ _ _ _ _ _ (su_sys S) (su_noise S) output t q msgs Ho Hc Hrun' (Hsz _ Hc')) as (t1 & out1 & c1 & E1 & E2 & E3).
  pose proof (C40_success (su_sys S) (su_noise S) _ output t q msgs Ho Hc Hrun') as [out2 E4]. rewrite E4 in E1. injection E1 as <- <-.
  rewrite lookup_insert in E2. injection E2 as <-.
  exists o, P. eexists _, _. split; [done|]. split; [exact Hc'|]. split; [exact E3|]. split; [exact Hri|]. exists msgs. done.
Qed.
Print Assumptions C64_index_file.

(** *** LoadPackages always gives tables or an error *)
Section Total.
Context (o : index_opts) (w : world) (hb : pheap) (bp : nat) (Hns : no_std_prefix hb).
Context (Hcl : ∀ p g r, hb !! p = Some g → r ∈ map snd (p_imports g) → is_Some (hb !! r)).
Lemma drain s : once o w hb bp (ls_heap s) (ls_tab s) → (∀ q, q ∈ ls_stack s → is_Some (hb !! q)) →
  (∃ h' t', rtc (lstep o w) s (LState h' t' [])) ∨
  ∃ h1 t1 q st g m, rtc (lstep o w) s (LState h1 t1 (q :: st)) ∧ h1 !! q = Some g ∧ skips h1 t1 g = false ∧ normalize_package o w g = Panic m.
Proof.
  induction (C27_traversal_terminates o w s) as [s _ IH]. intros Ho Hst. destruct s as [h t [|p st]]; cbn in *; [left; eexists _, _; apply rtc_refl|].
  destruct (Hst p) as [g0 Hg0]; [left|]. destruct (same_graph_lookup _ _ _ _ (on_same _ _ _ _ _ _ Ho) Hg0) as (g & Hg & Hsame).
  assert (Hgo : ∀ s', lstep o w (LState h t (p :: st)) s' → (∀ q, q ∈ ls_stack s' → is_Some (hb !! q)) →
    (∃ h' t', rtc (lstep o w) (LState h t (p :: st)) (LState h' t' [])) ∨
    ∃ h1 t1 q st1 g1 m, rtc (lstep o w) (LState h t (p :: st)) (LState h1 t1 (q :: st1)) ∧ h1 !! q = Some g1 ∧ skips h1 t1 g1 = false ∧ normalize_package o w g1 = Panic m).
  { intros [h' t' st'] Hs Hin. destruct (once_step o w hb bp Hns _ _ _ _ _ _ Ho Hs) as (Ho' & _ & _).
    destruct (IH _ Hs Ho' Hin) as [(h2 & t2 & H2)|(h1 & t1 & q & st1 & g1 & m & H2 & H3)].
    - left. exists h2, t2. by eapply rtc_l.
    - right. exists h1, t1, q, st1, g1, m. split; [by eapply rtc_l|done]. }
  destruct (skips h t g) eqn:Es.
  - eapply Hgo; [by eapply L_skip|]. cbn. intros q Hq. apply Hst. by right.
  - destruct (normalize_package o w g) as [g'|m] eqn:En; [|right; exists h, t, p, st, g, m; split; [apply rtc_refl|done]].
    assert (Hs : lstep o w (LState h t (p :: st)) (LState (<[p:=g']> h) (<[p_path g':=p]> t) (map snd (p_imports g') ++ st))) by by eapply L_visit.
    eapply Hgo; [exact Hs|]. cbn. intros q [Hq|Hq]%elem_of_app; [|apply Hst; by right].
    pose proof (lstep_same _ _ _ _ _ _ _ _ (no_std_same _ _ (on_same _ _ _ _ _ _ Ho) Hns) Hs) as Hsm.
    pose proof (same_graph_trans _ _ _ (on_same _ _ _ _ _ _ Ho) Hsm) as Hsm'. destruct (same_graph_lookup _ _ _ _ Hsm' Hg0) as (g1 & Hg1 & Hs1).
    rewrite lookup_insert in Hg1. injection Hg1 as <-. eapply Hcl; [exact Hg0|]. destruct Hs1 as (_ & _ & Hi). by rewrite <- Hi.
Qed.
Lemma loop_total ps : ∀ h t pj, once o w hb bp h t → (∀ q, q ∈ ps → is_Some (hb !! q)) →
  (∃ h' t' pj', load_loop o w h t pj ps h' t' pj') ∨ ∃ m, load_panics o w h t ps m.
Proof.
  induction ps as [|p ps IH]; intros h t pj Ho Hps; [left; eexists _, _, _; constructor|].
  destruct (drain (LState h t [p]) Ho) as [(h' & t' & Hr)|(h1 & t1 & q & st & g & m & Hr & H1 & H2 & H3)].
  - cbn. intros q ->%elem_of_list_singleton. apply Hps. left.
  - destruct (once_steps o w hb bp Hns (LState h t [p]) _ Ho Hr) as (Ho' & _ & _ & Hs). cbn in *.
    destruct (Hs p) as [(g & q & gq & Hg & Hq & _)|Hn]; [left| |by apply elem_of_nil in Hn].
    destruct (IH h' t' (<[p_path g := q]> pj) Ho') as [(h2 & t2 & pj2 & H2)|[m Hm]]; [intros; apply Hps; by right| |].
    + left. exists h2, t2, pj2. by econstructor.
    + right. exists m. by eapply LP_later.
  - right. exists m. by eapply LP_here.
Qed.
End Total.
Lemma loads_total o w bp answer : (∀ h0 roots, answer = inr (h0, roots) → load_input bp h0 roots) → ∃ h ld, loads o w bp answer h ld.
Proof.
  destruct answer as [e|[h0 roots]]; intros Hin; [exists ∅; eexists; by apply loads_error|]. specialize (Hin _ _ eq_refl).
  set (o' := with_default_version o). set (hb := <[bp:=builtin_pkg bp o']> h0).
  pose proof (hb_nostd o bp h0 roots Hin) as Hns.
  assert (Hcl : ∀ p g r, hb !! p = Some g → r ∈ map snd (p_imports g) → is_Some (hb !! r)).
  { intros p g r. unfold hb. rewrite lookup_insert_Some. intros [[_ <-]|[_ Hp]] Hr; [by apply elem_of_nil in Hr|].
    rewrite lookup_insert_is_Some. destruct (decide (bp = r)); [by left|right]. split; [done|]. by eapply in_closed. }
  assert (once o' w hb bp hb {[ "builtin" := bp ]}) as Ho0.
  { constructor; [apply same_graph_refl|by left|]. intros k q [<- <-]%lookup_singleton_Some. by left. }
  destruct (loop_total o' w hb bp Hns Hcl roots hb {[ "builtin" := bp ]} ∅ Ho0) as [(h & all & proj & Hl)|[m Hm]].
  - intros q Hq. unfold hb. rewrite lookup_insert_is_Some. destruct (decide (bp = q)); [by left|right]. split; [done|]. by apply (in_roots _ _ _ Hin).
  - exists h, (LoadOk all proj). by eapply loads_ok.
  - exists ∅, (LoadFailed ("during package loading: " +:+ m)). by eapply loads_panic.
Qed.

(** the three ways a run ends *)
Lemma scip_go_cases S f output t r : scip_go S f output t r →
  (∃ m, make_options (su_machine S) f = Panic m ∧ r = (t, su_noise S O, Exit 2 (Some m))) ∨
  (∃ e, make_options (su_machine S) f = Ok None ∧ r = (t, su_noise S O, Exit 1 (Some e))) ∨
  ∃ o h ld, make_options (su_machine S) f = Ok (Some o) ∧ loads (ro_index o) (su_world S) (su_builtin S) (su_packages S o) h ld ∧
    index_cmd (su_sys S) (su_noise S) None (program_run S o h ld) output t = r.
Proof. intros [m E|e E|o h ld E Hl]; [left; by exists m|right; left; by exists e|right; right; by exists o, h, ld]. Qed.

(** C64: whatever the flags and the state of the machine, the command ends, with code 0, 1 or 2. *)
Theorem C64_ends : ∀ S f output t, (∀ o h0 roots, su_packages S o = inr (h0, roots) → load_input (su_builtin S) h0 roots) →
  (∃ r, scip_go S f output t r) ∧
  ∀ t' out code e, scip_go S f output t (t', out, Exit code e) → code = 0 ∧ e = None ∨ (code = 1 ∨ code = 2) ∧ is_Some e.
Proof.
  intros S f output t Hin. split.
  - destruct (make_options (su_machine S) f) as [[o|]|m] eqn:E.
    + destruct (loads_total (ro_index o) (su_world S) (su_builtin S) (su_packages S o) (Hin o)) as (h & ld & Hl). eexists. by eapply sg_index.
    + eexists. by apply (sg_options _ _ _ _ "").
    + eexists. by eapply sg_crash.
  - intros t' out code e Hr. apply scip_go_cases in Hr as [(m & _ & [= -> -> -> ->])|[(e' & _ & [= -> -> -> ->])|(o & h & ld & Eo & Hl & E1)]]; [right; eauto|right; eauto|].
    revert E1. unfold index_cmd. destruct (String.eqb output "-").
    + destruct (program_run S o h ld _) as [msgs [[e1|]|e1]]; intros [= <- <- <- <-]; eauto.
    + destruct (os_create _ _ _) as [e1|[q u]]; [intros [= <- <- <- <-]; eauto|].
      destruct (program_run S o h ld _) as [msgs [[e1|]|e1]]; intros [= <- <- <- <-]; eauto.
Qed.
Print Assumptions C64_ends.

(** ... with code 1, and a plain output path, the output file is gone (or was never made), and nothing else has changed. *)
Theorem C64_failure : ∀ S f output t t' out e, plain_output t output →
  sy_stat (su_sys S) = None → sy_remove (su_sys S) = None →
  scip_go S f output t (t', out, Exit 1 e) → t' = t ∨ t' = delete output t.
Proof.
  intros S f output t t' out e Ho Hst Hrm Hr. apply scip_go_cases in Hr as [(m & _ & [=])|[(e' & _ & [= -> -> ->])|(o & h & ld & Eo & Hl & E1)]]; [by left|].
  destruct (sy_create (su_sys S)) as [ce|] eqn:Ec.
  - left. revert E1. unfold index_cmd. rewrite (not_dash output) by apply Ho. unfold os_create. rewrite Ec. by intros [= <- <- <-].
  - destruct (program_run S o h ld (cli_writer (sy_write (su_sys S)))) as [msgs oc] eqn:Er. destruct oc as [[err|]|err].
    + right. destruct (C40_failure_removes (su_sys S) (su_noise S) _ output t msgs err Ho Ec Hst Hrm Er) as [out' E2]. rewrite E2 in E1. by injection E1 as <- _ _.
    + exfalso. destruct (C40_success (su_sys S) (su_noise S) _ output t output msgs (plain_regular _ _ Ho) Ec Er) as [out' E2]. rewrite E2 in E1. by injection E1.
    + exfalso. revert E1. unfold index_cmd. rewrite (not_dash output) by apply Ho. rewrite Ec, (create_regular _ _ _ (plain_regular _ _ Ho)), Er. done.
Qed.
Print Assumptions C64_failure.

(** ... with code 2, a crash, never, if the options can be made without one, and either the search for implementations is
    skipped or every method of its candidate types has a type that the fingerprint covers. *)
Theorem C64_no_crash : ∀ S f output t, go_works S f →
  (∀ m, make_options (su_machine S) f ≠ Panic m) →
  (∀ o P deps g c m, loaded_by S f o P → io_skip_impls (ro_index o) = false → dependencies (pr_all P) (pr_proj P) deps →
    initial_tables (pr_heap P) (pr_all P) (pr_proj P) g →
    candidate (su_env S) (su_mset S) (su_package_level S) (su_scope S) (io_module_root (ro_index o)) (io_module_version (ro_index o)) (pr_heap P) g (pr_proj P) c ∨
    candidate (su_env S) (su_mset S) (su_package_level S) (su_scope S) (io_module_root (ro_index o)) (io_module_version (ro_index o)) (pr_heap P) g deps c →
    has_method (su_env S) (su_mset S) (c_type c) m → type_ok (su_unicode S) (o_type m)) →
  ∀ t' out code e, scip_go S f output t (t', out, Exit code e) → code = 0 ∨ code = 1.
Proof.
  intros S f output t Hg Hno Hty t' out code e Hr. apply scip_go_cases in Hr as [(m & Em & _)|[(e' & _ & [= -> -> -> ->])|(o & h & ld & Eo & Hl & E1)]]; [by destruct (Hno m)|by right|].
  assert (X : ∀ w, ∃ msgs err, program_run S o h ld w = (msgs, Returned err)).
  { intros w. destruct Hl as [e0 h Ha|h0 roots m h Ha Hp|h0 roots h all proj Ha Hload]; [apply load_failed_returns|apply load_failed_returns|].
    destruct (Hg o h0 roots h all proj Eo Ha Hload) as (P & <- & <- & <- & G).
    assert (HP : loaded_by S f o P) by (by exists h0, roots). rewrite (run_is S f o P HP). pose proof (search_fine S f o P HP) as Hs.
    pose proof (guarantees_indexable _ _ _ _ HP) as Hix. pose proof (gg_analysable _ _ _ _ _ G) as Han.
    destruct (gg_iteration _ _ _ _ _ G) as (I1 & I2 & I3 & I4 & I5).
    apply (C21_index_no_crash _ _ (pr_objs P) _ _ _ _ _ _ _ _ (pr_pkgs P)); try done. intros Hsk g Hi.
    destruct (C21_search_no_crash (su_env S) (su_unicode S) (su_crc S) (su_mset S) (su_constraint S) (pr_objs P) (su_package_level S) (su_scope S)
      (io_module_root (ro_index o)) (io_module_version (ro_index o)) (pr_heap P) (pr_all P) (pr_proj P) Han g _ (fresh_caches (io_module_root (ro_index o)) (io_module_version (ro_index o)))
      _ Hi I2 (fresh_ok _ _ _ _ _) (remote_dependencies _ _)) as [r Hr'].
    - intros c m Hc Hm. by eapply (Hty o P _ g c m HP Hsk (remote_dependencies _ _) Hi Hc Hm).
    - unfold impl_phase. rewrite Hr'. by eexists. }
  revert E1. unfold index_cmd. destruct (String.eqb output "-").
  + destruct (X (cli_writer (sy_write (su_sys S)))) as (msgs & [e1|] & Ex); rewrite Ex; intros [= <- <- <- <-]; auto.
  + destruct (os_create _ _ _) as [e1|[q u]]; [intros [= <- <- <- <-]; auto|].
    destruct (X (cli_writer (sy_write (su_sys S)))) as (msgs & [e1|] & Ex); rewrite Ex; intros [= <- <- <- <-]; auto.
Qed.
Print Assumptions C64_no_crash.
