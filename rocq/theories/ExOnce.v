(** C79 on the run of ExEnd.v, and on packages with variants. *)
From Coq Require Import Ascii String.
From stdpp Require Import prelude strings gmap relations sorting.
From Verif Require Import GoStr Scip GoTypes Ast Packages Symbols Document Lookup Pass1 Pass2 Paths Env Loader Index
  SpecSymbol SpecDecl SpecLookup SpecOcc SpecIndex P_Symbols P_Pass1 P_Lookup P_Pass2 P_Occ P_Index PropIndex P_Loader PropLoader
  Output Proto Cli PropCli Options PropPaths PropOptions Url PropUrl
  Quote Fingerprint SpecTypes P_Finger PropFinger Impls P_Rel P_Ident SpecImpl P_Filter P_Mem P_Extract P_Impl PropImpl PropDet PropCross PropPrecise PropFind
  PropModule ExDecl ExOcc ExIndex ExImpl ExDet ExFind Program PropEnd ExEnd P_Once PropOnce.
Open Scope string_scope.
Open Scope list_scope.

(** *** Two runs of the command *)
(** the second run iterates over every map in the opposite order, and reports progress *)
Definition e_it' : iteration := Iteration (it_maps y_it') y_o' ["ex.org/p"] ["ex.org/p"; "builtin"; "fmt"] ["ex.org/p"].
Definition e_again : surroundings := Surroundings e_machine e_world (λ _, inr (e_h0, [1])) 9 x_fs y_env y_mset w_cok w_level y_scope
  (λ o, o_name o) x_u w_crc p_digest e_it' no_errors (λ _, "...") "v0.1.26".
Lemma e_same : same_surroundings e_surroundings e_again.
Proof. by split. Qed.
Lemma e_iteration' : iteration_ok e_h e_all e_proj e_it'.
Proof.
  destruct e_iteration as (I1 & [I2 I2'] & I3 & I4 & I5). split; [split; intros; apply reverse_Permutation|].
  split; [|split; [exact I3|split; [|exact I5]]].
  - split; [split; intros; try done; apply reverse_Permutation|]. intros q p ti ob Hq Hp. cbn [e_it' it_search y_o' or_defs]. rewrite elem_of_reverse. by eapply I2'.
  - unfold key_order in *. cbn [it_all e_it e_it'] in *. rewrite <- I4. apply (reverse_Permutation ["fmt"; "builtin"; "ex.org/p"]).
Qed.
Lemma e_again_works : go_works e_again no_flags.
Proof.
  intros o h0 roots h all proj Eo [= <- <-] Hl. pose proof (e_options _ Eo) as Ei. rewrite Ei in Hl.
  destruct (e_loads _ _ _ Hl) as (-> & -> & ->). exists e_project. split; [done|]. split; [done|]. split; [done|].
  destruct (e_guarantees o Ei) as [G1 G2 G3 G4 G5 G6 G7 G8 G9 _]. split; try done. apply e_iteration'.
Qed.

Lemma e_reaches p : reachable e_h0 [1] p → p = 1 ∨ p = 3.
Proof.
  induction 1 as [p ->%elem_of_list_singleton|p g r Hp IH Hg Hr]; [by left|]. destruct (e_heap0 _ _ Hg) as [[-> ->]|[-> ->]]; cbn in Hr; [|by apply elem_of_nil in Hr].
  apply elem_of_list_singleton in Hr. by right.
Qed.
Lemma e_one_build : one_build e_h0 [1].
Proof.
  intros r p q g g' ->%elem_of_list_singleton Hp Hq Hg Hg' E.
  destruct (e_heap0 _ _ Hg) as [[-> ->]|[-> ->]], (e_heap0 _ _ Hg') as [[-> ->]|[-> ->]]; done.
Qed.
(** the facts of the type checker, for any project that is loaded *)
Lemma e_loaded o P : loaded_by e_surroundings no_flags o P → pr_heap P = e_h ∧ pr_all P = e_all ∧ pr_proj P = e_proj ∧ pr_env P = y_env ∧ pr_pkgs P = [e_p].
Proof.
  intros (h0 & roots & Eo & [= <- <-] & Hl & G). pose proof (e_options _ Eo) as Ei. rewrite Ei in Hl. destruct (e_loads _ _ _ Hl) as (E1 & E2 & E3).
  split_and!; [done|done|done|exact (gg_env _ _ _ _ _ G)|]. pose proof (gg_order _ _ _ _ _ G) as [(K1 & K2 & K3) Ho]. rewrite E1, E3 in *.
  destruct (pr_pkgs P) as [|p l] eqn:Ep.
  { exfalso. eapply (elem_of_nil "ex.org/p"), (K1 "ex.org/p"). by eexists. }
  assert (∀ x, x ∈ p :: l → x = e_p) as Hall.
  { intros x Hx. destruct (Ho x Hx) as (q & Hq & Hh). destruct (e_proj_in _ _ Hq) as [_ ->]. vm_compute in Hh. by injection Hh as <-. }
  rewrite (Hall p) in * by left. destruct l as [|p' l]; [done|]. exfalso. rewrite (Hall p') in * by (right; left).
  cbn [map] in K2. apply NoDup_cons in K2 as [K2 _]. apply K2. left.
Qed.
Lemma e_scopes o P : loaded_by e_surroundings no_flags o P → scopes_ok P Y_F.
Proof.
  intros HP. destruct (e_loaded o P HP) as (E1 & E2 & E3 & E4 & E5). clear HP.
  assert (∀ f i k, declaration Y_ y_p f i k → declaration P e_p f i k) as Hdecl.
  { intros f i k [D1 D2 D3 D4 D5 D6 D7 D8]. split; try done. rewrite E5. left. }
  assert (∀ f i o, project_type Y_ Y_F y_p f i o → project_type P Y_F e_p f i o) as Hpt.
  { intros f i o' [T1 T2 T3 T4 T5 T6]. split; try done. by apply Hdecl. }
  assert (∀ p f i o, project_type P Y_F p f i o → p = e_p ∧ project_type Y_ Y_F y_p f i o) as Hback.
  { intros p f i o' [[D1 D2 D3 D4 D5 D6 D7 D8] T2 T3 T4 T5 T6]. rewrite E5 in D1. apply elem_of_list_singleton in D1 as ->. split; [done|].
    split; try done. split; try done. left. }
  assert (∀ p o, dependency_type P Y_F p o → o = y_Buf) as Hdeps.
  { intros p o' [(q & Hq & Hh & Hn) _ _ Hr Hs _ _ _]. rewrite E1 in Hh. rewrite E2 in Hq. rewrite E3 in Hn.
    destruct (e_all_in _ _ Hq) as [[Ep ->]|[[Ep ->]|[Ep ->]]].
    - rewrite Ep in Hn. discriminate Hn.
    - vm_compute in Hh. injection Hh as <-. by apply elem_of_list_singleton in Hs.
    - vm_compute in Hh. injection Hh as <-. done. }
  destruct y_scopes as [K1 K2 K3 K4 K5 K6]. split.
  - intros p ti k o' Hp Hti Ho Hk Hl Hn Hb. rewrite E5 in Hp. apply elem_of_list_singleton in Hp as ->.
    destruct (K1 y_p ti k o') as (f & i & Hi & Ht); try done; [left|]. exists f, i. split; [done|]. by apply Hpt.
  - intros p f i o' f' i' o'' H H' E. destruct (Hback _ _ _ _ H) as [_ T], (Hback _ _ _ _ H') as [_ T']. by eapply (K2 y_p f i o' f' i' o'').
  - intros p o' H. by rewrite (Hdeps _ _ H).
  - intros p o' o'' H H' _. by rewrite (Hdeps _ _ H), (Hdeps _ _ H').
  - intros t m p f i o' Hm H. destruct (Hback _ _ _ _ H) as [_ T]. by eapply (K5 t m).
  - intros k q p m Hk Hq Hm. rewrite E1 in Hq. rewrite E2 in Hk. destruct (e_all_in _ _ Hk) as [[-> ->]|[[-> ->]|[-> ->]]]; vm_compute in Hq; injection Hq as <-; injection Hm as <-; split; reflexivity.
Qed.
Lemma e_builds : go_builds e_surroundings no_flags.
Proof.
  split; [|apply e_scopes]. intros o h0 roots _ [= <- <-]. apply e_one_build.
Qed.

Definition e_result' : ftree * string * cli_end :=
  index_cmd no_errors (λ _, "...") None (program_run e_again e_ro e_h (LoadOk e_all e_proj)) "index.scip" x_tree.
Lemma e_scip_go' : scip_go e_again no_flags "index.scip" x_tree e_result'.
Proof.
  apply (sg_index e_again no_flags "index.scip" x_tree e_ro e_h (LoadOk e_all e_proj)); [vm_compute; reflexivity|].
  eapply loads_ok; [reflexivity|]. apply e_load.
Qed.
Lemma e_size' c : e_result'.1.1 !! "index.scip" = Some (FReg c) → (Z.of_nat (slen c) < 2 ^ 63)%Z.
Proof.
  assert (H : match e_result'.1.1 !! "index.scip" with Some (FReg c) => Z.ltb (Z.of_nat (slen c)) (2 ^ 63) | _ => false end = true) by (vm_compute; reflexivity).
  intros E. rewrite E in H. by apply Z.ltb_lt.
Qed.
Lemma e_exit' : e_result'.2 = Exit 0 None.
Proof. vm_compute. reflexivity. Qed.
(** the files differ, the indexes do not *)
Example C79_files_differ : e_result.1.1 !! "index.scip" ≠ e_result'.1.1 !! "index.scip".
Proof. intros H. apply (f_equal (λ x, match x with Some (FReg c) => String.substring 140 500 c | _ => "" end)) in H. vm_compute in H. discriminate H. Qed.
Example C79_example : ∃ c c' ix ix', e_result.1.1 !! "index.scip" = Some (FReg c) ∧ e_result'.1.1 !! "index.scip" = Some (FReg c') ∧
  read_index c = Some ix ∧ read_index c' = Some ix' ∧ same_scip ix ix'.
Proof.
  refine (C79_same_index e_surroundings e_again no_flags "index.scip" x_tree x_tree "index.scip" "index.scip" e_result.1.1 e_result'.1.1 e_result.1.2 e_result'.1.2
    e_same e_works e_again_works e_builds _ _ _ _ e_size e_size').
  - apply plain_regular. split; [done|]. right. by eexists.
  - apply plain_regular. split; [done|]. right. by eexists.
  - pose proof e_scip_go as H. rewrite <- e_exit. by destruct e_result as [[]].
  - pose proof e_scip_go' as H. rewrite <- e_exit'. by destruct e_result' as [[]].
Qed.
Example C79_success_example : ∀ u' out' e, scip_go e_again no_flags "index.scip" x_tree (u', out', e) → e = Exit 0 None.
Proof.
  intros u' out' e. refine (C79_same_success e_surroundings e_again no_flags "index.scip" x_tree x_tree "index.scip" "index.scip" e_result.1.1 e_result.1.2 u' out' e
    e_same e_works e_again_works e_builds _ _ eq_refl (λ _, eq_refl) _).
  - apply plain_regular. split; [done|]. right. by eexists.
  - apply plain_regular. split; [done|]. right. by eexists.
  - pose proof e_scip_go as H. rewrite <- e_exit. by destruct e_result as [[]].
Qed.

(** *** Packages with variants *)
(** a imports b and c, b imports c.  The external test of c (8) imports c with its test files (5) and a; for it, a and b
    are compiled again (2, 6), with that variant of c. *)
Definition vr_list : list (nat * gpkg) :=
  [(1, lx_pkg 1 "a" [("b", 3); ("c", 4)] 1); (2, lx_pkg 2 "a" [("b", 6); ("c", 5)] 1); (3, lx_pkg 3 "b" [("c", 4)] 1);
   (4, lx_pkg 4 "c" [] 1); (5, lx_pkg 5 "c" [] 2); (6, lx_pkg 6 "b" [("c", 5)] 1); (8, lx_pkg 8 "c_test" [("a", 2); ("c", 5)] 1)].
Definition vr_heap : pheap := list_to_map vr_list.
Definition vr_roots : list nat := [1; 4; 5; 8].
Lemma vr_in p g : vr_heap !! p = Some g → (p, g) ∈ vr_list.
Proof. apply heap_cases. Qed.
Lemma vr_input : load_input 0 vr_heap vr_roots.
Proof.
  constructor.
  - intros p g r Hp Hr. apply vr_in in Hp.
    repeat (apply elem_of_cons in Hp as [[= -> ->]|Hp]; [cbn in Hr; repeat (apply elem_of_cons in Hr as [->|Hr]; [vm_compute; eauto|]); by apply elem_of_nil in Hr|]).
    by apply elem_of_nil in Hp.
  - intros p Hp. repeat (apply elem_of_cons in Hp as [->|Hp]; [vm_compute; eauto|]). by apply elem_of_nil in Hp.
  - reflexivity.
  - intros p g Hp. apply vr_in in Hp. repeat (apply elem_of_cons in Hp as [[= -> ->]|Hp]; [reflexivity|]). by apply elem_of_nil in Hp.
Qed.
(** what each root needs *)
Definition vr_build (r : nat) : list nat :=
  match r with 1 => [1; 3; 4] | 4 => [4] | 5 => [5] | 8 => [8; 2; 6; 5] | _ => [] end.
Lemma vr_reaches r p : r ∈ vr_roots → reachable vr_heap [r] p → p ∈ vr_build r.
Proof.
  intros Hr. induction 1 as [p ->%elem_of_list_singleton|p g x Hp IH Hg Hx].
  - enum Hr; subst r; cbn; left.
  - enum Hr; subst r; cbn [vr_build] in *; enum IH; subst p; vm_compute in Hg; injection Hg as <-; cbn in Hx; enum Hx; subst x; rewrite elem_of_list_In; vm_compute; tauto.
Qed.
Lemma vr_one_build : one_build vr_heap vr_roots.
Proof.
  intros r p q g g' Hr Hp Hq Hg Hg' E. apply (vr_reaches r p Hr) in Hp. apply (vr_reaches r q Hr) in Hq.
  enum Hr; subst r; cbn [vr_build] in *; enum Hp; subst p; enum Hq; subst q; try done; vm_compute in Hg, Hg'; injection Hg as <-; injection Hg' as <-; done.
Qed.
(** a and b, compiled again, import the test variant of c, which is a root: C26 and C27 apply *)
Example C27_recompiled_example : variants_agree vr_heap vr_roots.
Proof.
  split.
  - intros p g q gq r gr Hp Hq Hpath Hle Hr Hgr.
    assert (Hl : p ∈ [1; 2; 3; 4; 5; 6; 8]) by (apply vr_in in Hp; rewrite elem_of_list_In; rewrite elem_of_list_In in Hp; apply (List.in_map fst) in Hp; exact Hp).
    assert (Hl' : q ∈ [1; 2; 3; 4; 5; 6; 8]) by (apply vr_in in Hq; rewrite elem_of_list_In; rewrite elem_of_list_In in Hq; apply (List.in_map fst) in Hq; exact Hq).
    enum Hl; subst p; vm_compute in Hp; injection Hp as <-; enum Hl'; subst q; vm_compute in Hq; injection Hq as <-; try done;
      cbn in Hr, Hle; try lia; enum Hr; subst r; vm_compute in Hgr; injection Hgr as <-;
      first [left; rewrite elem_of_list_In; vm_compute; tauto
            |right; exists 3; eexists; split; [left|split; [reflexivity|done]]
            |right; exists 6; eexists; split; [left|split; [reflexivity|done]]
            |right; exists 2; eexists; split; [left|split; [reflexivity|done]]
            |right; exists 5; eexists; split; [left|split; [reflexivity|split; [done|cbn; lia]]]].
  - intros p g Hp Hb. apply vr_in in Hp. repeat (apply elem_of_cons in Hp as [[= -> ->]|Hp]; [discriminate Hb|]). by apply elem_of_nil in Hp.
Qed.
Example C79_load_example : ∃ h all proj, load_packages (ex_opts "v1.0.0") ex_world 0 vr_heap vr_roots h all proj ∧
  all !! "a" = Some 1 ∧ all !! "b" = Some 3 ∧ all !! "c" = Some 5 ∧
  ∀ h' all' proj', load_packages (ex_opts "v1.0.0") ex_world 0 vr_heap vr_roots h' all' proj' → all' = all ∧ proj' = proj.
Proof.
  destruct (run_load 20 (ex_opts "v1.0.0") ex_world 0 vr_heap vr_roots) as [[[h all] proj]|] eqn:E; [|vm_compute in E; discriminate].
  pose proof (run_load_sound _ _ _ _ _ _ _ _ _ E) as Hl. exists h, all, proj. split; [exact Hl|].
  assert (H : match run_load 20 (ex_opts "v1.0.0") ex_world 0 vr_heap vr_roots with Some (_, all, _) => (all !! "a", all !! "b", all !! "c") | None => (None, None, None) end = (Some 1, Some 3, Some 5))
    by (vm_compute; reflexivity).
  rewrite E in H. injection H as H1 H2 H3. split_and!; try done.
  intros h' all' proj' Hl'. destruct (C79_same_load _ _ _ _ _ _ _ _ vr_input vr_one_build Hl) as [K _]. destruct (K _ _ _ Hl') as (-> & -> & _). done.
Qed.

(** If one root needed two variants of a package, with as many files, the tables would depend on the order of the imports. *)
Definition vb_heap : pheap := list_to_map [(1, lx_pkg 1 "a" [("x", 2); ("y", 3)] 1); (2, lx_pkg 2 "c" [] 1); (3, lx_pkg 3 "c" [] 1)].
Lemma vb_visit o w h t p g g' st order s : h !! p = Some g → skips h t g = false → normalize_package o w g = Ok g' → order ≡ₚ map snd (p_imports g') →
  rtc (lstep o w) (LState (<[p := g']> h) (<[p_path g' := p]> t) (order ++ st)) s → rtc (lstep o w) (LState h t (p :: st)) s.
Proof. intros H1 H2 H3 H4 H5. eapply rtc_l; [by eapply L_visit|exact H5]. Qed.
Lemma vb_skip o w h t p g st s : h !! p = Some g → skips h t g = true → rtc (lstep o w) (LState h t st) s → rtc (lstep o w) (LState h t (p :: st)) s.
Proof. intros H1 H2 H3. eapply rtc_l; [by eapply L_skip|exact H3]. Qed.
Example C79_needs_one_build : ∃ h all proj h' all' proj',
  load_packages (ex_opts "v1.0.0") ex_world 0 vb_heap [1] h all proj ∧ load_packages (ex_opts "v1.0.0") ex_world 0 vb_heap [1] h' all' proj' ∧
  all !! "c" = Some 2 ∧ all' !! "c" = Some 3.
Proof.
  assert (∀ a b, (a, b) = (2, 3) ∨ (a, b) = (3, 2) → ∃ h all proj, load_packages (ex_opts "v1.0.0") ex_world 0 vb_heap [1] h all proj ∧ all !! "c" = Some a) as H.
  { intros a b [[= -> ->]|[= -> ->]].
    - eexists _, _, _. split.
      + unfold load_packages. eapply LL_cons.
        * unfold add_imports. eapply (vb_visit _ _ _ _ _ _ _ _ [2; 3]); [reflexivity|vm_compute; reflexivity|vm_compute; reflexivity|done|]. cbn [app].
          eapply (vb_visit _ _ _ _ _ _ _ _ []); [reflexivity|vm_compute; reflexivity|vm_compute; reflexivity|done|]. cbn [app].
          eapply vb_skip; [reflexivity|vm_compute; reflexivity|]. apply rtc_refl.
        * reflexivity.
        * reflexivity.
        * constructor.
      + reflexivity.
    - eexists _, _, _. split.
      + unfold load_packages. eapply LL_cons.
        * unfold add_imports. eapply (vb_visit _ _ _ _ _ _ _ _ [3; 2]); [reflexivity|vm_compute; reflexivity|vm_compute; reflexivity|apply perm_swap|]. cbn [app].
          eapply (vb_visit _ _ _ _ _ _ _ _ []); [reflexivity|vm_compute; reflexivity|vm_compute; reflexivity|done|]. cbn [app].
          eapply vb_skip; [reflexivity|vm_compute; reflexivity|]. apply rtc_refl.
        * reflexivity.
        * reflexivity.
        * constructor.
      + reflexivity.
  }
  destruct (H 2 3 (or_introl eq_refl)) as (h & all & proj & L & E). destruct (H 3 2 (or_intror eq_refl)) as (h' & all' & proj' & L' & E').
  by exists h, all, proj, h', all', proj'.
Qed.
