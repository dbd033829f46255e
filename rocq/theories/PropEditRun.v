(** C82 for the whole command: `scip-go index` before and after an edit of the bodies of functions. *)
From Coq Require Import Ascii String.
From stdpp Require Import prelude strings gmap sorting relations.
From Verif Require Import GoStr Scip GoTypes Ast Packages Symbols Document Lookup Pass1 Pass2 Paths Env Loader Index
  SpecSymbol SpecDecl SpecLookup SpecOcc SpecIndex P_Symbols P_Pass1 P_Link P_Lookup P_Pass2 P_Occ P_Loader PropLoader P_Index PropIndex
  Quote Fingerprint SpecTypes P_Finger PropFinger Impls P_Rel P_Ident SpecImpl P_Filter P_Mem P_Extract P_Impl PropImpl PropDet
  Output Proto Cli PropCli Options PropOptions Url PropUrl PropCross PropMember Program PropPrecise PropEnd PropSkip PropFind P_Once PropOnce
  SpecMove P_Move P_Move2 P_Move3 PropMove PropSkipRun PropPart PropEdit.
Open Scope string_scope.
Open Scope list_scope.

(** *** Specification *)
Definition edited_heap (fs fs' : fset) (h h' : pheap) : Prop := ∀ q, agree (edited_package fs fs') (h !! q) (h' !! q).
(** what packages.Load returns is that of S with other function bodies in some files; the machine is the same *)
Record edited_surroundings (S S' : surroundings) : Prop := EditedSurroundings {
  es_machine : su_machine S' = su_machine S; es_world : su_world S' = su_world S; es_builtin : su_builtin S' = su_builtin S;
  es_env : su_env S' = su_env S; es_digest : su_digest S' = su_digest S; es_objstr : su_objstr S' = su_objstr S;
  es_packages : ∀ o, match su_packages S o, su_packages S' o with
    | inl _, inl _ => True
    | inr (h, roots), inr (h', roots') => roots' = roots ∧ edited_heap (su_fs S) (su_fs S') h h'
    | _, _ => False end }.

(** *** Proofs: loading the edited packages *)
Section Load.
Context (fs fs' : fset) (o : index_opts) (w : world).
Notation E := (edited_package fs fs').
Lemma edited_nfiles g g' : E g g' → nfiles g' = nfiles g.
Proof. intros [_ _ _ _ Hs _]. apply (f_equal length) in Hs. by rewrite !map_length in Hs. Qed.
Lemma edited_normal g g' n : E g g' → normalize_package o w g = Ok n → ∃ n', normalize_package o w g' = Ok n' ∧ E n n'.
Proof.
  intros He. pose proof He as [Hp Hn Hm Hi Hs Ht]. unfold normalize_package. destruct (io_driver_set o); [intros [= <-]; eexists; split; [reflexivity|by split]|].
  assert (is_standard_lib g' = is_standard_lib g) as -> by (unfold is_standard_lib; by rewrite Hm).
  destruct (is_standard_lib g || io_indexing_stdlib o)%bool; cbn [p_module with_path with_module].
  - rewrite Hp. destruct (resolve_local _ _); [|done]. intros [= <-]. eexists. split; [done|]. by split.
  - rewrite Hm. destruct (p_module g); [|done]. destruct (resolve_local _ _); [|done]. intros [= <-]. eexists. split; [done|]. by split.
Qed.
Lemma edited_skips h h' t g g' : edited_heap fs fs' h h' → E g g' → skips h' t g' = skips h t g.
Proof.
  intros Hh Hg. unfold skips, files_of. rewrite (ep_path _ _ _ _ Hg). destruct (t !! p_path g) as [q|]; [|done].
  specialize (Hh q). unfold agree in Hh. destruct (h !! q) as [a|], (h' !! q) as [b|]; try done. cbn. by rewrite (edited_nfiles _ _ Hh), (edited_nfiles _ _ Hg).
Qed.
Lemma edited_lookup h h' q g : edited_heap fs fs' h h' → h !! q = Some g → ∃ g', h' !! q = Some g' ∧ E g g'.
Proof. intros Hh Hq. specialize (Hh q). rewrite Hq in Hh. cbn in Hh. destruct (h' !! q) as [g'|]; [|done]. by exists g'. Qed.
Lemma edited_insert h h' q g g' : edited_heap fs fs' h h' → E g g' → edited_heap fs fs' (<[q := g]> h) (<[q := g']> h').
Proof. intros Hh Hg r. destruct (decide (q = r)) as [->|Hne]; [by rewrite !lookup_insert|]. rewrite !lookup_insert_ne by done. apply Hh. Qed.
Lemma edited_steps s s1 : rtc (lstep o w) s s1 → ∀ h', edited_heap fs fs' (ls_heap s) h' →
  ∃ h1', edited_heap fs fs' (ls_heap s1) h1' ∧ rtc (lstep o w) (LState h' (ls_tab s) (ls_stack s)) (LState h1' (ls_tab s1) (ls_stack s1)).
Proof.
  induction 1 as [s|s s1 s2 Hs _ IH]; intros h' Hh; [by exists h'|].
  destruct Hs as [h t p g st Hg Hk|h t p g n order st Hg Hk Hn Ho]; cbn [ls_heap ls_tab ls_stack] in *; destruct (edited_lookup _ _ _ _ Hh Hg) as (g' & Hg' & He).
  - destruct (IH h' Hh) as (h1' & Hh1 & Hr). exists h1'. split; [done|]. eapply rtc_l; [|exact Hr]. apply (L_skip _ _ _ _ _ g'); [done|]. by rewrite (edited_skips h h' t g g').
  - destruct (edited_normal _ _ _ He Hn) as (n' & Hn' & Hen). destruct (IH (<[p := n']> h')) as (h1' & Hh1 & Hr); [by apply edited_insert|].
    exists h1'. split; [done|]. eapply rtc_l; [|exact Hr]. rewrite <-(ep_path _ _ _ _ Hen). apply (L_visit _ _ _ _ _ g' n'); [done| |done|].
    + by rewrite (edited_skips h h' t g g').
    + by rewrite (ep_imports _ _ _ _ Hen).
Qed.
Lemma edited_loop h t pj ps h1 t1 pj1 : load_loop o w h t pj ps h1 t1 pj1 → ∀ h', edited_heap fs fs' h h' →
  ∃ h1', edited_heap fs fs' h1 h1' ∧ load_loop o w h' t pj ps h1' t1 pj1.
Proof.
  induction 1 as [|h t pj p ps h1 t1 g q h2 t2 pj2 Ha Hg Hq _ IH]; intros h' Hh; [exists h'; by split; [|constructor]|].
  destruct (edited_steps _ _ Ha h' Hh) as (h1' & Hh1 & Hr). cbn [ls_heap ls_tab ls_stack] in *. destruct (IH h1' Hh1) as (h2' & Hh2 & Hl).
  destruct (edited_lookup _ _ _ _ Hh1 Hg) as (g' & Hg' & He). exists h2'. split; [done|].
  apply (LL_cons _ _ _ _ _ _ _ h1' t1 g' q); [exact Hr|done| |]; by rewrite (ep_path _ _ _ _ He).
Qed.
End Load.
Lemma edited_load fs fs' o w bp h0 h0' roots h all proj : edited_heap fs fs' h0 h0' → load_packages o w bp h0 roots h all proj →
  ∃ h', edited_heap fs fs' h h' ∧ load_packages o w bp h0' roots h' all proj.
Proof. unfold load_packages. intros Hh Hl. eapply (edited_loop _ _ _ _ _ _ _ _ _ _ _ Hl). apply edited_insert; [done|]. by split. Qed.

Lemma run_as S f o P w msgs : loaded_by S f o P → program_run S o (pr_heap P) (LoadOk (pr_all P) (pr_proj P)) w = (msgs, Returned None) →
  indexed_as (su_digest S) (su_objstr S) (io_module_root (ro_index o)) P msgs.
Proof.
  intros HP E. rewrite (run_is S f o P HP) in E. pose proof (search_fine S f o P HP) as Hs. pose proof (guarantees_indexable _ _ _ _ HP) as Hix.
  destruct HP as (h0 & roots & _ & _ & _ & G). destruct (gg_iteration _ _ _ _ _ G) as (I1 & I2 & I3 & I4 & I5).
  eexists _, _, _, _, _, _, _, _, _, _. split_and!; [exact Hix|exact I1|exact I3|exact I4|exact I5|exact Hs|exact E].
Qed.

(** the two runs, when the second sees the files at the positions of the first *)
Lemma edited_command S S' f output t t' q q' u u' out out' :
  edited_surroundings S S' → go_works S f → go_works S' f → builds_once S' f →
  regular_output t output q → regular_output t' output q' →
  scip_go S f output t (u, out, Exit 0 None) → scip_go S' f output t' (u', out', Exit 0 None) →
  (∀ c, u !! q = Some (FReg c) → (Z.of_nat (slen c) < 2 ^ 63)%Z) → (∀ c, u' !! q' = Some (FReg c) → (Z.of_nat (slen c) < 2 ^ 63)%Z) →
  ∃ o P P' c c' ix ix', loaded_by S f o P ∧ loaded_by S' f o P' ∧ edited P P' ∧
    u !! q = Some (FReg c) ∧ u' !! q' = Some (FReg c') ∧ read_index c = Some ix ∧ read_index c' = Some ix' ∧
    ∃ msgs msgs', si_docs ix = documents msgs ∧ si_docs ix' = documents msgs' ∧
      indexed_as (su_digest S) (su_objstr S) (io_module_root (ro_index o)) P msgs ∧ indexed_as (su_digest S) (su_objstr S) (io_module_root (ro_index o)) P' msgs'.
Proof.
  intros Hes Hg Hg' Hb Ho Ho' Hr Hr' Hsz Hsz'.
  inversion Hr as [| |o h ld Eo Hld Er]. inversion Hr' as [| |o' h' ld' Eo' Hld' Er'].
  assert (o' = o) as ->. { rewrite (es_machine _ _ Hes) in Eo'. congruence. }
  destruct (exit_zero (su_sys S) (su_noise S) _ output t q _ Ho Er eq_refl) as (Hc & msgs & Hrun & Et). cbn [fst] in Et.
  destruct (exit_zero (su_sys S') (su_noise S') _ output t' q' _ Ho' Er' eq_refl) as (Hc' & msgs' & Hrun' & Et'). cbn [fst] in Et'.
  destruct (good_file S o h ld output t q u out msgs Ho Hc Hrun Et Hsz Er) as (ix & F1 & F2 & F3 & F4 & F5).
  destruct (good_file S' o h' ld' output t' q' u' out' msgs' Ho' Hc' Hrun' Et' Hsz' Er') as (ix' & F1' & F2' & F3' & F4' & F5').
  destruct (loaded_run _ _ _ _ _ _ Hld Hrun) as (h0 & roots & all & proj & Ha & L & ->). destruct (loaded_run _ _ _ _ _ _ Hld' Hrun') as (h0' & roots' & all' & proj' & Ha' & L' & ->).
  pose proof (es_packages _ _ Hes o) as Hpk. rewrite Ha, Ha' in Hpk. destruct Hpk as [-> Hh0].
  destruct (Hg o h0 roots h all proj Eo Ha L) as (P & <- & <- & <- & G). assert (HP : loaded_by S f o P) by (by exists h0, roots).
  destruct (edited_load _ _ _ _ _ _ _ _ _ _ _ Hh0 L) as (h1 & Hh1 & L1). rewrite <-(es_world _ _ Hes), <-(es_builtin _ _ Hes) in L1.
  destruct (Hg' o h0' roots h1 (pr_all P) (pr_proj P) Eo' Ha' L1) as (P' & E1 & E2 & E3 & G').
  destruct (tables_once _ _ _ _ roots (gg_input _ _ _ _ _ G') (Hb o h0' roots Eo' Ha') _ _ _ _ _ _ L1 L') as [<- <-].
  rewrite <-(second_run S' S' f Hg' o h0' roots _ _ _ _ Eo' Ha' L1 L') in Hrun'. rewrite <-E1 in L1, Hh1, Hrun'.
  rewrite <-E2, <-E3 in L1, Hrun'. assert (HP' : loaded_by S' f o P') by (by exists h0', roots).
  exists o, P, P', (bytes_of_messages msgs), (bytes_of_messages msgs'), ix, ix'. split; [done|]. split; [done|]. split.
  - split; [by rewrite (gg_env _ _ _ _ _ G), (gg_env _ _ _ _ _ G'), (es_env _ _ Hes)|done|done|]. rewrite (gg_fs _ _ _ _ _ G), (gg_fs _ _ _ _ _ G'). exact Hh1.
  - do 4 (split; [done|]). exists msgs, msgs'. do 2 (split; [done|]). split; [by eapply run_as|].
    rewrite <-(es_digest _ _ Hes), <-(es_objstr _ _ Hes). by eapply run_as.
Qed.

(** C82: a run of the command before an edit of the bodies of functions and one after it, that both exit with code 0:
    for every file that was not edited, both indexes have the same document, up to relationships and the order of the
    symbols; for the edited files, they have the same symbols up to locals.  S': the second run; S1: what it reads, with
    the files at the positions they had in the first run (mv, back: how the positions moved, since files became longer
    or shorter and are parsed in another order). *)
Theorem C82_whole_command : ∀ mv back S S1 S' f output t t' q q' u u' out out',
  edited_surroundings S S1 → same_but_positions mv back S1 S' f → go_works S f → go_works S1 f → builds_once S1 f → maps_iterate S' f →
  regular_output t output q → regular_output t' output q' →
  scip_go S f output t (u, out, Exit 0 None) → scip_go S' f output t' (u', out', Exit 0 None) →
  (∀ c, u !! q = Some (FReg c) → (Z.of_nat (slen c) < 2 ^ 63)%Z) → (∀ c, u' !! q' = Some (FReg c) → (Z.of_nat (slen c) < 2 ^ 63)%Z) →
  ∃ o P P1 c c' ix ix', loaded_by S f o P ∧ loaded_by (seen mv back S1 S') f o P1 ∧ edited P P1 ∧
    u !! q = Some (FReg c) ∧ u' !! q' = Some (FReg c') ∧ read_index c = Some ix ∧ read_index c' = Some ix' ∧
    ∀ p p' fl fl' ti ti', p ∈ pr_pkgs P → p' ∈ pr_pkgs P1 → p_path p' = p_path p → p_info p = Some ti → p_info p' = Some ti' →
      fl ∈ p_syntax p → fl' ∈ p_syntax p' → outline fl' = outline fl →
      ∃ d d', document_of (pr_pkgs P) (si_docs ix) p fl d ∧ document_of (pr_pkgs P1) (si_docs ix') p' fl' d' ∧ d_path d' = d_path d ∧
        map unrelated (filter (λ i, ¬ is_local (i_symbol i)) (d_symbols d')) ≡ₚ map unrelated (filter (λ i, ¬ is_local (i_symbol i)) (d_symbols d)) ∧
        (fl' = fl → untouched (su_fs S) (su_fs S1) ti ti' fl → d_occs d' = d_occs d ∧ map unrelated (d_symbols d') ≡ₚ map unrelated (d_symbols d)).
Proof.
  intros mv back S S1 S' f output t t' q q' u u' out out' Hes Hsp Hg Hg1 Hb Hm Ho Ho' Hr Hr' Hsz Hsz'.
  assert (Hes' : edited_surroundings S (seen mv back S1 S')) by (destruct Hes; by split).
  destruct (edited_command S (seen mv back S1 S') f output t t' q q' u u' out out') as (o & P & P1 & c & c' & ix & ix' & HP & HP1 & Hed & E1 & E2 & E3 & E4 & msgs & msgs' & E5 & E6 & X & X'); try done.
  - by eapply seen_works.
  - by apply seen_command with (f := f).
  - exists o, P, P1, c, c', ix, ix'. do 7 (split; [done|]). intros p p' fl fl' ti ti' Hp Hp' Epath Hti Hti' Hfl Hfl' Hout.
    destruct (edited_documents _ _ _ P P1 msgs msgs' p p' fl fl' ti ti' Hed X X' Hp Hp' Epath Hti Hti' Hfl Hfl' Hout) as (d & d' & D1 & D2 & D3 & D4 & D5).
    exists d, d'. rewrite E5, E6. do 4 (split; [done|]). intros Ef Hut. apply D5; [done|].
    destruct HP as (? & ? & _ & _ & _ & G). destruct HP1 as (? & ? & _ & _ & _ & G1). by rewrite (gg_fs _ _ _ _ _ G), (gg_fs _ _ _ _ _ G1).
Qed.
Print Assumptions C82_whole_command.
