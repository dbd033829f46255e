(** C84 on the run of ExEnd.v, and a run after doc.go was added to the package, in which /src/p.go is parsed behind
    another file. *)
From Coq Require Import Ascii String.
From stdpp Require Import prelude strings gmap relations sorting.
From Verif Require Import GoStr Scip GoTypes Ast Packages Symbols Document Lookup Pass1 Pass2 Paths Env Loader Index
  SpecSymbol SpecDecl SpecLookup SpecOcc SpecIndex P_Symbols P_Pass1 P_Lookup P_Pass2 P_Occ P_Index PropIndex P_Loader PropLoader
  Output Proto Cli PropCli Options PropPaths PropOptions Url PropUrl
  Quote Fingerprint SpecTypes P_Finger PropFinger Impls P_Rel P_Ident SpecImpl P_Filter P_Mem P_Extract P_Impl PropImpl PropDet PropCross PropPrecise PropFind
  PropModule ExDecl ExOcc ExIndex ExImpl ExDet ExFind Program PropEnd ExEnd P_Once PropOnce ExOnce SpecMove P_Move P_Move2 P_Move3 PropMove ExMove
  PropSkip PropSkipRun PropPart PropEdit PropEditRun ExEditRun PropGrow PropGrowRun.
Open Scope string_scope.
Open Scope list_scope.

(** doc.go, with the documentation of the package, is added to it *)
Definition gd_file : node := NFile 201 true "Package p has an interface." (mk 50 "p" 210) [].
Definition gd_name (z : Z) : option string := if Z.leb z 200 then Some "/src/p.go" else if Z.leb z 300 then Some "/src/doc.go" else None.
Definition gd_fs : fset := FSet (λ z, Position (match gd_name z with Some n => n | None => "" end) 1 (z mod 201)) gd_name.
Definition gd_p0 : gpkg := GPkg 1 "ex.org/p" "p" (Some (GMod "ex.org" "" "/src" "/src/go.mod" None)) [("fmt", 3)] [gd_file; y_file] (Some w_p) (Some y_ti).
Definition gd_h0 : pheap := {[1 := gd_p0; 3 := e_fmt0]}.
Definition gd_p : gpkg := GPkg 1 "ex.org/p" "p" (Some (GMod "ex.org" "v1.0.0" "/src" "/src/go.mod" None)) [("fmt", 3)] [gd_file; y_file] (Some w_p) (Some y_ti).
Definition gd_h : pheap := <[3 := e_fmt]> (<[1 := gd_p]> (<[9 := e_builtin]> gd_h0)).
Definition gd_it : iteration := Iteration x_mo y_o ["ex.org/p"] ["fmt"; "builtin"; "ex.org/p"] ["ex.org/p"].
Definition gd_surroundings : surroundings := Surroundings e_machine e_world (λ _, inr (gd_h0, [1])) 9 gd_fs y_env y_mset w_cok w_level y_scope
  (λ o, o_name o) x_u w_crc p_digest gd_it no_errors (λ _, "") "v0.1.26".
Definition gd_project : project := Project y_env y_objs gd_fs gd_h e_all e_proj [gd_p].

Lemma gd_heap0 q p : gd_h0 !! q = Some p → q = 1 ∧ p = gd_p0 ∨ q = 3 ∧ p = e_fmt0.
Proof. unfold gd_h0. rewrite !lookup_insert_Some, lookup_singleton_Some. naive_solver. Qed.
Lemma gd_heap q p : gd_h !! q = Some p → q = 1 ∧ p = gd_p ∨ q = 3 ∧ p = e_fmt ∨ q = 9 ∧ p = e_builtin.
Proof. unfold gd_h. rewrite !lookup_insert_Some. intros [[<- <-]|[H [[<- <-]|[H1 [[<- <-]|[H2 Hx]]]]]]; [tauto|tauto|tauto|]. destruct (gd_heap0 _ _ Hx) as [[-> _]|[-> _]]; done. Qed.
Lemma gd_input : load_input 9 gd_h0 [1].
Proof.
  split.
  - intros p g r Hp Hr. destruct (gd_heap0 _ _ Hp) as [[-> ->]|[-> ->]]; cbn in Hr; [|by apply elem_of_nil in Hr]. apply elem_of_list_singleton in Hr as ->. by eexists.
  - intros p ->%elem_of_list_singleton. by eexists.
  - reflexivity.
  - intros p g Hp. destruct (gd_heap0 _ _ Hp) as [[-> ->]|[-> ->]]; reflexivity.
Qed.
(** there is only one way to load it *)
Lemma gd_normal_p : normalize_package e_o e_world gd_p0 = Ok gd_p.
Proof. vm_compute. reflexivity. Qed.
Lemma gd_loads h all proj : load_packages e_o e_world 9 gd_h0 [1] h all proj → h = gd_h ∧ all = e_all ∧ proj = e_proj.
Proof.
  intros Hl. unfold load_packages in Hl. change (with_default_version e_o) with e_o in Hl. inversion Hl as [|? ? ? ? ? h1 t1 g q h2 t2 pj2 Ha Hg Hq Hl']; subst. clear Hl.
  assert (X : LState h1 t1 [] = LState gd_h e_all []).
  { revert Ha. unfold add_imports. generalize (eq_refl : ls_stack (LState h1 t1 []) = []). generalize (LState h1 t1 []). intros s Hs Hr.
    eapply (one_step e_o e_world (λ s, s = LState gd_h e_all [])); [exact Hr|exact Hs|reflexivity|vm_compute; reflexivity|]. clear Hr Hs s.
    intros g' order s Hn Ho Hr Hs. rewrite gd_normal_p in Hn. injection Hn as <-. cbn [p_imports gd_p map snd] in Ho. apply Permutation_singleton_r in Ho as ->.
    eapply (one_step e_o e_world (λ s, s = LState gd_h e_all [])); [exact Hr|exact Hs|reflexivity|vm_compute; reflexivity|]. clear Hr Hs s.
    intros g' order s Hn Ho Hr Hs. rewrite e_normal_fmt in Hn. injection Hn as <-. cbn [p_imports e_fmt map snd] in Ho. apply Permutation_nil_r in Ho as ->. cbn [app] in Hr.
    inversion Hr as [x|x y z H1 H2]; subst; [reflexivity|]. inversion H1. }
  injection X as -> ->. vm_compute in Hg. injection Hg as <-. vm_compute in Hq. injection Hq as <-. inversion Hl'; subst. done.
Qed.
Lemma gd_load : load_packages e_o e_world 9 gd_h0 [1] gd_h e_all e_proj.
Proof.
  destruct (run_load 20 e_o e_world 9 gd_h0 [1]) as [[[h all] proj]|] eqn:E; [|vm_compute in E; discriminate].
  apply run_load_sound in E. by destruct (gd_loads _ _ _ E) as (-> & -> & ->).
Qed.
Lemma gd_analysable : analysable y_env y_mset y_objs y_scope gd_h e_all e_proj.
Proof.
  split.
  - apply y_methods.
  - intros k q H. destruct (e_all_in _ _ H) as [[-> ->]|[[-> ->]|[-> ->]]]; eexists _, _; split; [reflexivity|done|reflexivity|done|reflexivity|done].
  - intros k q H. destruct (e_proj_in _ _ H) as [-> ->]; eexists _, _, _; (split; [reflexivity|done]).
  - intros k q p o H Hn Hp Ho. destruct (e_all_in _ _ H) as [[-> ->]|[[-> ->]|[-> ->]]]; [done| |]; vm_compute in Hp; injection Hp as <-.
    + enum Ho; subst o; (split; [apply y_object, elem_of_list_In; vm_compute; tauto|by eexists]).
    + enum Ho.
Qed.
Lemma gd_typed_go : typed_file gd_fs y_ti (imports_of gd_h gd_p) y_objs y_file.
Proof.
  split; [split| |intros o path H; by apply elem_of_nil in H].
  - by eexists _, _, _, _, _.
  - intros decl m c Hd Hm Hc.
    assert (H : forallb (λ decl, forallb (λ m, forallb (λ c, match c with NFuncDecl _ _ _ _ _ _ _ | NFile _ _ _ _ _ => false | _ => true end)
       (node_children m)) (subnodes decl)) (file_decls y_file) = true) by reflexivity.
    rewrite forallb_forall in H. specialize (H _ (proj1 (elem_of_list_In _ _) Hd)).
    rewrite forallb_forall in H. specialize (H _ (proj1 (elem_of_list_In _ _) Hm)).
    rewrite forallb_forall in H. specialize (H _ (proj1 (elem_of_list_In _ _) Hc)). by destruct c.
  - intros decl Hd. enum Hd; by subst.
  - vm_compute. repeat (apply NoDup_cons; split; [intros H; enum H|]). constructor.
  - intros par i o path Hi Hu Hk. exfalso. apply tab_in in Hu. cbn in Hu.
    repeat (destruct Hu as [Hu|Hu]; [injection Hu as E' <-; discriminate|]). done.
  - intros ptr o path [H|H] Hk; apply tab_in in H; cbn in H;
      repeat (destruct H as [H|H]; [injection H as _ <-; try discriminate; done|]); done.
  - intros i Hi. rewrite <- elem_of_node_idents in Hi. enum Hi; subst i; fits.
  - intros d p e r nm t b H. enum H. injection H as <- <- <- <- <- <- <-. fits.
  - intros ptr nm p l path imp Hin Himp. enum Hin.
  - intros ptr o Hu Hk. apply tab_in in Hu. cbn in Hu. repeat (destruct Hu as [Hu|Hu]; [injection Hu as <- <-; apply y_object, elem_of_list_In; vm_compute; tauto|]). done.
Qed.
Lemma gd_typed_doc : typed_file gd_fs y_ti (imports_of gd_h gd_p) y_objs gd_file.
Proof.
  split; [split| |intros o path H; by apply elem_of_nil in H].
  - by eexists _, _, _, _, _.
  - intros decl m c Hd Hm Hc.
    assert (H : forallb (λ decl, forallb (λ m, forallb (λ c, match c with NFuncDecl _ _ _ _ _ _ _ | NFile _ _ _ _ _ => false | _ => true end)
       (node_children m)) (subnodes decl)) (file_decls gd_file) = true) by reflexivity.
    rewrite forallb_forall in H. specialize (H _ (proj1 (elem_of_list_In _ _) Hd)).
    rewrite forallb_forall in H. specialize (H _ (proj1 (elem_of_list_In _ _) Hm)).
    rewrite forallb_forall in H. specialize (H _ (proj1 (elem_of_list_In _ _) Hc)). by destruct c.
  - intros decl Hd. enum Hd.
  - vm_compute. repeat (apply NoDup_cons; split; [intros H; enum H|]). constructor.
  - intros par i o path Hi Hu Hk. exfalso. apply tab_in in Hu. cbn in Hu.
    repeat (destruct Hu as [Hu|Hu]; [injection Hu as E' <-; discriminate|]). done.
  - intros ptr o path [H|H] Hk; apply tab_in in H; cbn in H;
      repeat (destruct H as [H|H]; [injection H as _ <-; try discriminate; done|]); done.
  - intros i Hi. rewrite <- elem_of_node_idents in Hi. enum Hi; subst i; fits.
  - intros d p e r nm t b H. enum H.
  - intros ptr nm p l path imp Hin Himp. enum Hin.
  - intros ptr o Hu Hk. apply tab_in in Hu. cbn in Hu. repeat (destruct Hu as [Hu|Hu]; [injection Hu as <- <-; apply y_object, elem_of_list_In; vm_compute; tauto|]). done.
Qed.
Lemma gd_typed f : f ∈ [gd_file; y_file] → typed_file gd_fs y_ti (imports_of gd_h gd_p) y_objs f.
Proof.
  intros Hf. enum Hf; subst f; [apply gd_typed_doc|apply gd_typed_go].
Qed.
Lemma gd_defs_at f : f ∈ [gd_file; y_file] → defs_at_idents y_ti f.
Proof.
  intros Hf. split.
  - intros i d Hi Hd. rewrite <- elem_of_node_idents in Hi. enum Hf; subst f; enum Hi; subst i; vm_compute in Hd; try discriminate; injection Hd as <-; reflexivity.
  - enum Hf; subst f; vm_compute; repeat (apply NoDup_cons; split; [intros H; enum H|]); constructor.
Qed.
Lemma gd_order : project_in_order gd_h e_proj [gd_p].
Proof.
  split.
  - split; [|split].
    + intros k. cbn [map p_path gd_p]. split; [intros ->%elem_of_list_singleton; by eexists|].
      intros [q H]. destruct (e_proj_in _ _ H) as [-> _]. left.
    + apply NoDup_singleton.
    + repeat constructor.
  - intros p ->%elem_of_list_singleton. exists 1. done.
Qed.
Lemma gd_iteration : iteration_ok gd_h e_all e_proj gd_it.
Proof.
  assert (K1 : key_order e_proj ["ex.org/p"]) by (unfold key_order; vm_compute; repeat constructor).
  split; [split; intros; done|]. split; [|split; [exact K1|split; [|exact K1]]].
  - split; [split; intros; done|]. intros q p ti ob Hq Hp. destruct (gd_heap _ _ Hq) as [[_ ->]|[[_ ->]|[_ ->]]]; [|done|done].
    injection Hp as <-. cbn [y_ti ti_defs]. split.
    + intros H. enum H; subst ob; [by exists 1|by exists 3|by exists 4|by exists 7].
    + intros [i H]. apply tab_in in H. apply elem_of_list_In, (List.in_map snd _ _ H).
  - apply NoDup_Permutation; [|apply NoDup_fst_map_to_list|].
    + repeat (apply NoDup_cons; split; [intros H; enum H|]). constructor.
    + intros k. rewrite !elem_of_list_In. vm_compute. tauto.
Qed.
Lemma gd_guarantees o : ro_index o = e_o → go_guarantees gd_surroundings o gd_h0 [1] gd_project.
Proof.
  intros Eo. split; cbn [pr_env pr_objs pr_fs pr_heap pr_all pr_proj pr_pkgs gd_project gd_surroundings su_builtin su_env su_fs su_mset su_scope su_iteration].
  - apply gd_input.
  - intros p q g g' Hp Hq E. destruct (gd_heap0 _ _ Hp) as [[-> ->]|[-> ->]], (gd_heap0 _ _ Hq) as [[-> ->]|[-> ->]]; done.
  - intros p g Hp E. destruct (gd_heap0 _ _ Hp) as [[-> ->]|[-> ->]]; done.
  - done.
  - done.
  - apply gd_order.
  - split.
    + intros p f ->%elem_of_list_singleton Hf. pose proof (gd_typed f Hf) as H1. pose proof (gd_defs_at f Hf) as H2.
      exists y_ti. enum Hf; subst f; eexists; repeat (split; [done|]); reflexivity.
    + intros i j p f q f' name Hi Hj Hf Hf'.
      assert (NoDup (map (λ e : gpkg * node, gd_name (file_package_pos e.2)) (files_in_order [gd_p]))) as Hnd.
      { vm_compute. repeat (apply NoDup_cons; split; [intros H; enum H|]). constructor. }
      eapply (NoDup_lookup _ i j (Some name) Hnd); rewrite list_lookup_fmap.
      * rewrite Hi. cbn. by f_equal.
      * rewrite Hj. cbn. by f_equal.
  - intros p f name i ->%elem_of_list_singleton Hf Hfn Hi. rewrite <- elem_of_node_idents in Hi.
    unfold file_of in Hfn. enum Hf; subst f; vm_compute in Hfn; injection Hfn as <-; enum Hi; subst i; reflexivity.
  - apply gd_analysable.
  - apply gd_iteration.
Qed.
Lemma gd_works : go_works gd_surroundings no_flags.
Proof.
  intros o h0 roots h all proj Eo [= <- <-] Hl. pose proof (e_options _ Eo) as Ei. rewrite Ei in Hl.
  destruct (gd_loads _ _ _ Hl) as (-> & -> & ->). exists gd_project. split; [done|]. split; [done|]. split; [done|]. by apply gd_guarantees.
Qed.

Definition gd_result : ftree * string * cli_end :=
  index_cmd no_errors (λ _, "") None (program_run gd_surroundings e_ro gd_h (LoadOk e_all e_proj)) "index.scip" x_tree.
Example gd_exit : gd_result.2 = Exit 0 None.
Proof. vm_compute. reflexivity. Qed.
Example gd_scip_go : scip_go gd_surroundings no_flags "index.scip" x_tree gd_result.
Proof.
  apply (sg_index gd_surroundings no_flags "index.scip" x_tree e_ro gd_h (LoadOk e_all e_proj)); [vm_compute; reflexivity|].
  eapply loads_ok; [reflexivity|]. apply gd_load.
Qed.
Lemma gd_size c : gd_result.1.1 !! "index.scip" = Some (FReg c) → (Z.of_nat (slen c) < 2 ^ 63)%Z.
Proof.
  assert (H : match gd_result.1.1 !! "index.scip" with Some (FReg c) => Z.ltb (Z.of_nat (slen c)) (2 ^ 63) | _ => false end = true) by (vm_compute; reflexivity).
  intros E. rewrite E in H. by apply Z.ltb_lt.
Qed.

Local Open Scope Z_scope.
Definition gd_fs' : fset := FSet (λ z, fs_position gd_fs (e_back z)) (λ z, fs_file gd_fs (e_back z)).
Definition gd_mo : orders :=
  Orders (or_packages y_o) (λ p, map (mv_obj e_mv) (or_defs y_o p)) (or_types y_o) (or_ifaces y_o) (or_imethods y_o) (or_tmethods y_o) (or_collect y_o).
Definition gd_moved_it : iteration := Iteration (it_maps gd_it) gd_mo ["ex.org/p"] ["fmt"; "builtin"; "ex.org/p"] ["ex.org/p"].
Definition gd_moved : surroundings := Surroundings e_machine e_world (λ _, inr (mv_heap e_mv e_back gd_h0, [1%nat])) 9 gd_fs' y_env
  (λ t, map (mv_obj e_mv) (y_mset t)) w_cok w_level (λ p, map (mv_obj e_mv) (y_scope p))
  (λ o, o_name o) x_u w_crc p_digest gd_moved_it no_errors (λ _, "...") "v0.1.26".
Lemma gd_whole : whole_idents e_mv gd_h0.
Proof.
  intros q p f i Hq Hf Hi. destruct (gd_heap0 _ _ Hq) as [[-> ->]|[-> ->]]; [|by apply elem_of_nil in Hf].
  enum Hf; subst f; enum Hi; subst i; reflexivity.
Qed.
Lemma gd_same_but : same_but_positions e_mv e_back gd_surroundings gd_moved no_flags.
Proof.
  pose proof e_opposite as Ho. split; try reflexivity; try exact Ho.
  - intros o h0 roots _ [= <- <-]. apply gd_whole.
  - split; intros z; cbn [gd_moved su_fs gd_fs' fs_position fs_file gd_surroundings]; by rewrite (mv_cancel e_mv e_back Ho).
  - intros p o. cbn. unfold w_level, is_type_name. by destruct o.
  - intros o. cbn. by destruct o.
Qed.
Lemma gd_maps : maps_iterate gd_moved no_flags.
Proof.
  intros o h0 roots h all proj Eo [= <- <-] Hl. pose proof (e_options _ Eo) as Ei. rewrite Ei in Hl.
  apply mv_load_packages_back in Hl as (h1 & -> & Hl). destruct (gd_loads _ _ _ Hl) as (-> & -> & ->).
  destruct gd_iteration as (I1 & [I2 I2'] & I3). split; [exact I1|]. split; [|exact I3]. split.
  - destruct I2 as [J1 J2 J3 J4 J5 J6]. split; [exact J1|exact J2|exact J3|exact J4|exact J5|exact J6].
  - intros q p ti ob Hq Hp. rewrite mv_heap_lookup in Hq. destruct (gd_h !! q) as [p0|] eqn:Eq; [|done]. injection Hq as <-.
    cbn in Hp. destruct (p_info p0) as [ti0|] eqn:Ep; [|done]. injection Hp as <-.
    assert (Eor : or_defs y_o (mv_pkg e_mv e_back p0) = or_defs y_o p0) by (cbn; by rewrite Ep).
    cbn [gd_moved su_iteration gd_moved_it it_search gd_mo or_defs]. rewrite Eor. split.
    + intros (ob0 & -> & Hin)%elem_of_list_fmap. apply (I2' q p0 ti0 ob0 Eq Ep) in Hin as [i Hi]. exists i. cbn. by rewrite Hi.
    + intros [i Hi]. cbn in Hi. destruct (ti_defs ti0 i) as [ob0|] eqn:Ei0; [|done]. injection Hi as <-.
      apply elem_of_list_fmap. exists ob0. split; [done|]. apply (I2' q p0 ti0 ob0 Eq Ep). by exists i.
Qed.
Definition gd_moved_result : ftree * string * cli_end :=
  index_cmd no_errors (λ _, "...") None (program_run gd_moved e_ro (mv_heap e_mv e_back gd_h) (LoadOk e_all e_proj)) "index.scip" x_tree.
Lemma gd_moved_go : scip_go gd_moved no_flags "index.scip" x_tree gd_moved_result.
Proof.
  apply (sg_index gd_moved no_flags "index.scip" x_tree e_ro (mv_heap e_mv e_back gd_h) (LoadOk e_all e_proj)); [vm_compute; reflexivity|].
  eapply loads_ok; [reflexivity|]. apply mv_load_packages, gd_load.
Qed.
Lemma gd_moved_size c : gd_moved_result.1.1 !! "index.scip" = Some (FReg c) → (Z.of_nat (slen c) < 2 ^ 63)%Z.
Proof.
  assert (H : match gd_moved_result.1.1 !! "index.scip" with Some (FReg c) => Z.ltb (Z.of_nat (slen c)) (2 ^ 63) | _ => false end = true) by (vm_compute; reflexivity).
  intros E. rewrite E in H. by apply Z.ltb_lt.
Qed.
Lemma gd_moved_exit : gd_moved_result.2 = Exit 0 None.
Proof. vm_compute. reflexivity. Qed.
Lemma gd_loaded o P : loaded_by (seen e_mv e_back gd_surroundings gd_moved) no_flags o P → pr_pkgs P = [gd_p].
Proof.
  intros (h0 & roots & Eo & [= <- <-] & Hl & G). pose proof (e_options _ Eo) as Ei. rewrite Ei in Hl. destruct (gd_loads _ _ _ Hl) as (E1 & E2 & E3).
  pose proof (gg_order _ _ _ _ _ G) as [(K1 & K2 & K3) Ho]. rewrite E1, E3 in *.
  destruct (pr_pkgs P) as [|p l] eqn:Ep.
  { exfalso. eapply (elem_of_nil "ex.org/p"), (K1 "ex.org/p"). by eexists. }
  assert (∀ x, x ∈ p :: l → x = gd_p) as Hall.
  { intros x Hx. destruct (Ho x Hx) as (q & Hq & Hh). destruct (e_proj_in _ _ Hq) as [_ ->]. vm_compute in Hh. by injection Hh as <-. }
  rewrite (Hall p) in * by left. destruct l as [|p' l]; [done|]. exfalso. rewrite (Hall p') in * by (right; left).
  cbn [map] in K2. apply NoDup_cons in K2 as [K2 _]. apply K2. left.
Qed.

Lemma gd_grown o P P1 : loaded_by e_surroundings no_flags o P → loaded_by (seen e_mv e_back gd_surroundings gd_moved) no_flags o P1 → grown P P1.
Proof.
  intros HP HP1. destruct (e_loaded o P HP) as (Eh & Ea & _ & Ee & Epk). pose proof (gd_loaded o P1 HP1) as Epk1.
  pose proof HP as (h0 & roots & Eo & _ & _ & G0). pose proof (gg_fs _ _ _ _ _ G0) as Ef.
  pose proof HP1 as (h1 & roots1 & _ & [= <- <-] & Hl & G). rewrite (e_options _ Eo) in Hl. destruct (gd_loads _ _ _ Hl) as (Eh1 & Ea1 & _).
  split.
  - rewrite (gg_env _ _ _ _ _ G), Ee. reflexivity.
  - rewrite Eh, Ea, Eh1, Ea1. intros k q p Hk Hp. destruct (e_all_in _ _ Hk) as [[-> ->]|[[-> ->]|[-> ->]]]; vm_compute in Hp; injection Hp as <-; eexists _, _; split_and!; reflexivity.
  - rewrite Epk, Epk1, Ef, (gg_fs _ _ _ _ _ G). intros p ->%elem_of_list_singleton. exists gd_p. split; [left|]. split; [done|]. split; [done|].
    split; [intros f ->%elem_of_list_singleton; right; left|]. intros ti ti' f [= <-] [= <-] ->%elem_of_list_singleton. split; [done|done|done| |done].
    intros m Hm. assert (H : forallb (λ m, match gd_name (node_pos m), x_name (node_pos m) with Some a, Some b => String.eqb a "/src/p.go" && String.eqb b "/src/p.go" | _, _ => false end) (subnodes y_file) = true) by (vm_compute; reflexivity).
    rewrite forallb_forall in H. specialize (H m (proj1 (elem_of_list_In _ _) Hm)). cbn [seen su_fs gd_surroundings e_surroundings fs_file fs_position pos_file gd_fs x_fs].
    destruct (gd_name (node_pos m)) as [a|], (x_name (node_pos m)) as [b|]; try done. apply andb_true_iff in H as [->%String.eqb_eq ->%String.eqb_eq]. done.
Qed.
Lemma gd_place f z : place f z → f ∈ [gd_file; y_file] → f = y_file ∧ (z <= 200)%Z ∧ z ≠ 9%Z.
Proof.
  intros (d & m & Hd & Hm & <- & _) Hf. enum Hf; subst f; [by apply elem_of_nil in Hd|]. split; [done|].
  assert (H : forallb (λ m, Z.leb (node_pos m) 200 && negb (Z.eqb (node_pos m) 9)) (List.concat (map subnodes (file_decls y_file))) = true) by (vm_compute; reflexivity).
  rewrite forallb_forall in H. specialize (H m). rewrite <-elem_of_list_In in H. apply andb_true_iff in H as [H1 H2].
  - apply Z.leb_le in H1. apply negb_true_iff, Z.eqb_neq in H2. done.
  - apply elem_of_concat_map. by exists d.
Qed.
Lemma gd_laid_out fs l P : pr_fs P = fs → pr_pkgs P = l → fs = x_fs ∧ l = [e_p] ∨ fs = gd_fs ∧ l = [gd_p] → laid_out P.
Proof.
  intros Ef El Hor p f name z Hp Hf N Hz. rewrite Ef, El in *.
  assert (Hf' : f ∈ [gd_file; y_file]). { destruct Hor as [[_ ->]|[_ ->]]; apply elem_of_list_singleton in Hp as ->; [|done]. apply elem_of_list_singleton in Hf as ->. right; left. }
  destruct (gd_place f z Hz Hf') as (-> & H1 & H2). split; [|exact H2].
  destruct Hor as [[-> _]|[-> _]]; vm_compute in N; injection N as <-; cbn [fs_file x_fs gd_fs]; unfold x_name, gd_name; apply Z.leb_le in H1; by rewrite H1.
Qed.
Lemma gd_untouched : untouched x_fs gd_fs y_ti y_ti y_file.
Proof.
  split; [|done..|].
  - split; [done|done|done| |].
    + intros m Hm. assert (H : forallb (λ m, match gd_name (node_pos m), x_name (node_pos m) with Some a, Some b => String.eqb a "/src/p.go" && String.eqb b "/src/p.go" | _, _ => false end) (subnodes y_file) = true) by (vm_compute; reflexivity).
      rewrite forallb_forall in H. specialize (H m (proj1 (elem_of_list_In _ _) Hm)). cbn [fs_file fs_position pos_file gd_fs x_fs].
      destruct (gd_name (node_pos m)) as [a|], (x_name (node_pos m)) as [b|]; try done. apply andb_true_iff in H as [->%String.eqb_eq ->%String.eqb_eq]. done.
    + intros d c i j ns t vs H. enum H.
  - intros m z Hm Hz. apply elem_of_list_In in Hm. vm_compute in Hm.
    repeat (destruct Hm as [Hm|Hm]; [subst m; rewrite elem_of_list_In in Hz; vm_compute in Hz; repeat (destruct Hz as [Hz|Hz]; [subst z; vm_compute; reflexivity|]); destruct Hz|]). destruct Hm.
Qed.
Lemma gd_refers_back P P1 : pr_all P = e_all → pr_heap P = e_h → pr_pkgs P = [e_p] → pr_all P1 = e_all → pr_heap P1 = gd_h → pr_pkgs P1 = [gd_p] → pr_fs P1 = gd_fs →
  refers_back P P1 e_p gd_p y_ti y_file.
Proof.
  intros Ea Eh Epk Ea1 Eh1 Epk1 Ef1. split.
  - reflexivity.
  - intros i o Hi Hu Hk. rewrite <- elem_of_node_idents in Hi. enum Hi; subst i; vm_compute in Hu; try discriminate; injection Hu as <-. all: try (exfalso; eapply Hk; reflexivity).
    all: split; [|intros tp H; intros _; rewrite Ea; vm_compute in H; injection H as <-; vm_compute; by eexists].
    all: intros p' f' name Hp' Hf' Hn Hz. all: rewrite Epk1 in Hp'; apply elem_of_list_singleton in Hp' as ->.
    all: rewrite Ef1 in *; unfold file_of in Hn; enum Hf'; subst f'; vm_compute in Hn; injection Hn as <-.
    all: vm_compute in Hz; try discriminate. all: split; [exists e_p; rewrite Epk; split; [left|split; [done|left]]|vm_compute; discriminate].
  - intros i o path Hi Hu Hk _. rewrite Ea. rewrite <- elem_of_node_idents in Hi. enum Hi; subst i; vm_compute in Hu; try discriminate; injection Hu as <-; vm_compute in Hk; try discriminate; injection Hk as <-; vm_compute; by eexists.
  - intros r nm pp s o path H. enum H.
Qed.
Example C84_command_example : ∃ c c' ix ix' d d', e_result.1.1 !! "index.scip" = Some (FReg c) ∧ gd_moved_result.1.1 !! "index.scip" = Some (FReg c') ∧
  read_index c = Some ix ∧ read_index c' = Some ix' ∧ document_of [e_p] (si_docs ix) e_p y_file d ∧ document_of [gd_p] (si_docs ix') gd_p y_file d' ∧ d_path d' = d_path d ∧ d_occs d' = d_occs d.
Proof.
  destruct (C84_whole_command e_mv e_back e_surroundings gd_surroundings gd_moved no_flags "index.scip" x_tree x_tree "index.scip" "index.scip" e_result.1.1 gd_moved_result.1.1 e_result.1.2 gd_moved_result.1.2
    eq_refl eq_refl eq_refl gd_same_but e_works gd_works gd_maps) as (o & P & P1 & c & c' & ix & ix' & HP & HP1 & E1 & E2 & E3 & E4 & HD).
  - apply plain_regular. split; [done|]. right. by eexists.
  - apply plain_regular. split; [done|]. right. by eexists.
  - pose proof e_scip_go as H. rewrite <- e_exit. by destruct e_result as [[]].
  - pose proof gd_moved_go as H. rewrite <- gd_moved_exit. by destruct gd_moved_result as [[]].
  - apply e_size.
  - apply gd_moved_size.
  - pose proof (gd_grown o P P1 HP HP1) as Hgr. destruct (e_loaded o P HP) as (Eh & Ea & _ & _ & Epk). pose proof (gd_loaded o P1 HP1) as Epk1.
    pose proof HP as (h0 & roots & Eo & _ & _ & G0). pose proof (gg_fs _ _ _ _ _ G0) as Ef.
    pose proof HP1 as (h1 & roots1 & _ & [= <- <-] & Hl & G). rewrite (e_options _ Eo) in Hl. destruct (gd_loads _ _ _ Hl) as (Eh1 & Ea1 & _).
    pose proof (gg_fs _ _ _ _ _ G) as Ef1.
    specialize (HD Hgr (gd_laid_out _ _ P Ef Epk (or_introl (conj eq_refl eq_refl)))
      (gd_laid_out _ _ P1 Ef1 Epk1 (or_intror (conj eq_refl eq_refl)))).
    pose proof (gd_refers_back P P1 Ea Eh Epk Ea1 Eh1 Epk1 Ef1) as Hrb.
    rewrite Epk, Epk1 in HD. clear Hgr HP HP1.
    destruct (HD e_p gd_p y_file (GMod "ex.org" "v1.0.0" "/src" "/src/go.mod" None) y_ti y_ti) as (d & d' & D1 & D2 & D3 & D4 & _);
      [left|left|reflexivity|reflexivity|reflexivity|reflexivity|left|exact gd_untouched|exact Hrb|].
    exists c, c', ix, ix', d, d'. exact (conj E1 (conj E2 (conj E3 (conj E4 (conj D1 (conj D2 (conj D3 D4))))))).
Qed.
