(** C82 on the run of ExEnd.v, and a run after an edit of the body of T's method N:
      func (T) N() { x := 1; _ = x }
    in which /src/p.go is parsed elsewhere. *)
From Coq Require Import Ascii String.
From stdpp Require Import prelude strings gmap relations sorting.
From Verif Require Import GoStr Scip GoTypes Ast Packages Symbols Document Lookup Pass1 Pass2 Paths Env Loader Index
  SpecSymbol SpecDecl SpecLookup SpecOcc SpecIndex P_Symbols P_Pass1 P_Lookup P_Pass2 P_Occ P_Index PropIndex P_Loader PropLoader
  Output Proto Cli PropCli Options PropPaths PropOptions Url PropUrl
  Quote Fingerprint SpecTypes P_Finger PropFinger Impls P_Rel P_Ident SpecImpl P_Filter P_Mem P_Extract P_Impl PropImpl PropDet PropCross PropPrecise PropFind
  PropModule ExDecl ExOcc ExIndex ExImpl ExDet ExFind Program PropEnd ExEnd P_Once PropOnce ExOnce SpecMove P_Move P_Move2 P_Move3 PropMove ExMove
  PropSkip PropSkipRun PropPart PropEdit PropEditRun.
Open Scope string_scope.
Open Scope list_scope.

Definition eb_dN : node := NFuncDecl "" 60 92 (Some (NFieldList [NField "" "" [] (NIdent (mk 6 "T" 66))]))
   (mk 7 "N" 69) (NFuncType 60 empty_fields empty_fields empty_fields)
   (Some (NBlockStmt 74 [NOther 76 [NIdent (mk 30 "x" 76); NOther 81 []]; NOther 84 [NIdent (mk 31 "_" 84); NIdent (mk 32 "x" 88)]])).
Definition eb_file : node := NFile 1 false "" (mk 0 "p" 9) [y_dI; y_dT; eb_dN].
Definition eb_x : obj := Obj 30 "x" (Some w_p) 76 (OVar false) (TBasic BInt false) None.
Definition eb_objects : list obj := y_objects ++ [eb_x].
Definition eb_objs (i : nat) : option obj := List.find (λ o, Nat.eqb (o_id o) i) eb_objects.
Definition eb_defs : list (nat * obj) := y_defs ++ [(30, eb_x)].
Definition eb_ti : tinfo := TInfo (tab eb_defs) (tab [(6, y_T); (32, eb_x)]) (λ _, None) [] (λ _, None) (λ _, "sig").
Definition eb_o : orders :=
  Orders (λ t, map fst (map_to_list t)) (λ p, match p_info p with Some _ => map snd eb_defs | None => [] end)
    (λ _ d, map_to_list d) (λ _ _ d, map_to_list d) (λ _ _ _ d, map_to_list d) (λ _ _ d, map_to_list d) (λ d, map_to_list d).
Lemma eb_object o : o ∈ eb_objects → go_object eb_objs o.
Proof. intros H. enum H; subst o; (split; [reflexivity|reflexivity|reflexivity|split; discriminate|intros p; discriminate]). Qed.
Lemma eb_methods : method_sets y_env y_mset eb_objs.
Proof.
  destruct y_methods as [H1 H2 H3 H4]. split; [exact H1|exact H2|exact H3|].
  intros t m Hm. apply eb_object. unfold eb_objects. apply elem_of_app. left. by apply (y_mset_cases t).
Qed.
Definition eb_p0 : gpkg := GPkg 1 "ex.org/p" "p" (Some (GMod "ex.org" "" "/src" "/src/go.mod" None)) [("fmt", 3)] [eb_file] (Some w_p) (Some eb_ti).
Definition eb_h0 : pheap := {[1 := eb_p0; 3 := e_fmt0]}.
Definition eb_p : gpkg := GPkg 1 "ex.org/p" "p" (Some (GMod "ex.org" "v1.0.0" "/src" "/src/go.mod" None)) [("fmt", 3)] [eb_file] (Some w_p) (Some eb_ti).
Definition eb_h : pheap := <[3 := e_fmt]> (<[1 := eb_p]> (<[9 := e_builtin]> eb_h0)).
Definition eb_it : iteration := Iteration x_mo eb_o ["ex.org/p"] ["fmt"; "builtin"; "ex.org/p"] ["ex.org/p"].
Definition eb_surroundings : surroundings := Surroundings e_machine e_world (λ _, inr (eb_h0, [1])) 9 x_fs y_env y_mset w_cok w_level y_scope
  (λ o, o_name o) x_u w_crc p_digest eb_it no_errors (λ _, "") "v0.1.26".
Definition eb_project : project := Project y_env eb_objs x_fs eb_h e_all e_proj [eb_p].

Lemma eb_heap0 q p : eb_h0 !! q = Some p → q = 1 ∧ p = eb_p0 ∨ q = 3 ∧ p = e_fmt0.
Proof. unfold eb_h0. rewrite !lookup_insert_Some, lookup_singleton_Some. naive_solver. Qed.
Lemma eb_heap q p : eb_h !! q = Some p → q = 1 ∧ p = eb_p ∨ q = 3 ∧ p = e_fmt ∨ q = 9 ∧ p = e_builtin.
Proof. unfold eb_h. rewrite !lookup_insert_Some. intros [[<- <-]|[H [[<- <-]|[H1 [[<- <-]|[H2 Hx]]]]]]; [tauto|tauto|tauto|]. destruct (eb_heap0 _ _ Hx) as [[-> _]|[-> _]]; done. Qed.
Lemma eb_input : load_input 9 eb_h0 [1].
Proof.
  split.
  - intros p g r Hp Hr. destruct (eb_heap0 _ _ Hp) as [[-> ->]|[-> ->]]; cbn in Hr; [|by apply elem_of_nil in Hr]. apply elem_of_list_singleton in Hr as ->. by eexists.
  - intros p ->%elem_of_list_singleton. by eexists.
  - reflexivity.
  - intros p g Hp. destruct (eb_heap0 _ _ Hp) as [[-> ->]|[-> ->]]; reflexivity.
Qed.
(** there is only one way to load it *)
Lemma eb_normal_p : normalize_package e_o e_world eb_p0 = Ok eb_p.
Proof. vm_compute. reflexivity. Qed.
Lemma eb_loads h all proj : load_packages e_o e_world 9 eb_h0 [1] h all proj → h = eb_h ∧ all = e_all ∧ proj = e_proj.
Proof.
  intros Hl. unfold load_packages in Hl. change (with_default_version e_o) with e_o in Hl. inversion Hl as [|? ? ? ? ? h1 t1 g q h2 t2 pj2 Ha Hg Hq Hl']; subst. clear Hl.
  assert (X : LState h1 t1 [] = LState eb_h e_all []).
  { revert Ha. unfold add_imports. generalize (eq_refl : ls_stack (LState h1 t1 []) = []). generalize (LState h1 t1 []). intros s Hs Hr.
    eapply (one_step e_o e_world (λ s, s = LState eb_h e_all [])); [exact Hr|exact Hs|reflexivity|vm_compute; reflexivity|]. clear Hr Hs s.
    intros g' order s Hn Ho Hr Hs. rewrite eb_normal_p in Hn. injection Hn as <-. cbn [p_imports eb_p map snd] in Ho. apply Permutation_singleton_r in Ho as ->.
    eapply (one_step e_o e_world (λ s, s = LState eb_h e_all [])); [exact Hr|exact Hs|reflexivity|vm_compute; reflexivity|]. clear Hr Hs s.
    intros g' order s Hn Ho Hr Hs. rewrite e_normal_fmt in Hn. injection Hn as <-. cbn [p_imports e_fmt map snd] in Ho. apply Permutation_nil_r in Ho as ->. cbn [app] in Hr.
    inversion Hr as [x|x y z H1 H2]; subst; [reflexivity|]. inversion H1. }
  injection X as -> ->. vm_compute in Hg. injection Hg as <-. vm_compute in Hq. injection Hq as <-. inversion Hl'; subst. done.
Qed.
Lemma eb_load : load_packages e_o e_world 9 eb_h0 [1] eb_h e_all e_proj.
Proof.
  destruct (run_load 20 e_o e_world 9 eb_h0 [1]) as [[[h all] proj]|] eqn:E; [|vm_compute in E; discriminate].
  apply run_load_sound in E. by destruct (eb_loads _ _ _ E) as (-> & -> & ->).
Qed.
Lemma eb_analysable : analysable y_env y_mset eb_objs y_scope eb_h e_all e_proj.
Proof.
  split.
  - apply eb_methods.
  - intros k q H. destruct (e_all_in _ _ H) as [[-> ->]|[[-> ->]|[-> ->]]]; eexists _, _; split; [reflexivity|done|reflexivity|done|reflexivity|done].
  - intros k q H. destruct (e_proj_in _ _ H) as [-> ->]; eexists _, _, _; (split; [reflexivity|done]).
  - intros k q p o H Hn Hp Ho. destruct (e_all_in _ _ H) as [[-> ->]|[[-> ->]|[-> ->]]]; [done| |]; vm_compute in Hp; injection Hp as <-.
    + enum Ho; subst o; (split; [apply eb_object, elem_of_list_In; vm_compute; tauto|by eexists]).
    + enum Ho.
Qed.
Lemma eb_typed : typed_file x_fs eb_ti (imports_of eb_h eb_p) eb_objs eb_file.
Proof.
  split; [split| |intros o path H; by apply elem_of_nil in H].
  - by eexists _, _, _, _, _.
  - intros decl m c Hd Hm Hc.
    assert (H : forallb (λ decl, forallb (λ m, forallb (λ c, match c with NFuncDecl _ _ _ _ _ _ _ | NFile _ _ _ _ _ => false | _ => true end)
       (node_children m)) (subnodes decl)) (file_decls eb_file) = true) by reflexivity.
    rewrite forallb_forall in H. specialize (H _ (proj1 (elem_of_list_In _ _) Hd)).
    rewrite forallb_forall in H. specialize (H _ (proj1 (elem_of_list_In _ _) Hm)).
    rewrite forallb_forall in H. specialize (H _ (proj1 (elem_of_list_In _ _) Hc)). by destruct c.
  - intros decl Hd. enum Hd; by subst.
  - vm_compute. repeat (apply NoDup_cons; split; [intros H; enum H|]). constructor.
  - intros par i o path Hi Hu Hk. exfalso. apply tab_in in Hu. cbn in Hu.
    repeat (destruct Hu as [Hu|Hu]; [injection Hu as E' <-; discriminate|]). done.
  - intros ptr o path [H|H] Hk; apply tab_in in H; cbn in H;
      repeat (destruct H as [H|H]; [injection H as _ <-; try discriminate; done|]); done.
  - intros i Hi. rewrite <- elem_of_node_idents in Hi. enum Hi; subst i; fits.
  - intros d p e r nm t b H. enum H. injection H as <- <- <- <- <- <- <-. fits.
  - intros ptr nm p l path imp Hin Himp. enum Hin.
  - intros ptr o Hu Hk. apply tab_in in Hu. cbn in Hu. destruct Hu as [[= <- <-]|[[= <- <-]|[]]]; apply eb_object, elem_of_list_In; vm_compute; tauto.
Qed.
Lemma eb_defs_at : defs_at_idents eb_ti eb_file.
Proof.
  split.
  - intros i d Hi Hd. rewrite <- elem_of_node_idents in Hi. enum Hi; subst i; vm_compute in Hd; try discriminate; injection Hd as <-; reflexivity.
  - vm_compute. repeat (apply NoDup_cons; split; [intros H; enum H|]). constructor.
Qed.
Lemma eb_order : project_in_order eb_h e_proj [eb_p].
Proof.
  split.
  - split; [|split].
    + intros k. cbn [map p_path eb_p]. split; [intros ->%elem_of_list_singleton; by eexists|].
      intros [q H]. destruct (e_proj_in _ _ H) as [-> _]. left.
    + apply NoDup_singleton.
    + repeat constructor.
  - intros p ->%elem_of_list_singleton. exists 1. done.
Qed.
Lemma eb_iteration : iteration_ok eb_h e_all e_proj eb_it.
Proof.
  assert (K1 : key_order e_proj ["ex.org/p"]) by (unfold key_order; vm_compute; repeat constructor).
  split; [split; intros; done|]. split; [|split; [exact K1|split; [|exact K1]]].
  - split; [split; intros; done|]. intros q p ti ob Hq Hp. destruct (eb_heap _ _ Hq) as [[_ ->]|[[_ ->]|[_ ->]]]; [|done|done].
    injection Hp as <-. cbn [eb_ti ti_defs]. split.
    + intros H. enum H; subst ob; [by exists 1|by exists 3|by exists 4|by exists 7|by exists 30].
    + intros [i H]. apply tab_in in H. apply elem_of_list_In, (List.in_map snd _ _ H).
  - apply NoDup_Permutation; [|apply NoDup_fst_map_to_list|].
    + repeat (apply NoDup_cons; split; [intros H; enum H|]). constructor.
    + intros k. rewrite !elem_of_list_In. vm_compute. tauto.
Qed.
Lemma eb_guarantees o : ro_index o = e_o → go_guarantees eb_surroundings o eb_h0 [1] eb_project.
Proof.
  intros Eo. split; cbn [pr_env pr_objs pr_fs pr_heap pr_all pr_proj pr_pkgs eb_project eb_surroundings su_builtin su_env su_fs su_mset su_scope su_iteration].
  - apply eb_input.
  - intros p q g g' Hp Hq E. destruct (eb_heap0 _ _ Hp) as [[-> ->]|[-> ->]], (eb_heap0 _ _ Hq) as [[-> ->]|[-> ->]]; done.
  - intros p g Hp E. destruct (eb_heap0 _ _ Hp) as [[-> ->]|[-> ->]]; done.
  - done.
  - done.
  - apply eb_order.
  - split.
    + intros p f ->%elem_of_list_singleton ->%elem_of_list_singleton. exists eb_ti, "/src/p.go".
      split; [done|]. split; [apply eb_typed|]. split; [apply eb_defs_at|done].
    + intros i j p f q f' name Hi Hj _ _. apply lookup_lt_Some in Hi, Hj. cbn in Hi, Hj. lia.
  - intros p f name i ->%elem_of_list_singleton ->%elem_of_list_singleton Hfn Hi. rewrite <- elem_of_node_idents in Hi.
    unfold file_of in Hfn. vm_compute in Hfn. injection Hfn as <-. enum Hi; subst i; reflexivity.
  - apply eb_analysable.
  - apply eb_iteration.
Qed.
Lemma eb_works : go_works eb_surroundings no_flags.
Proof.
  intros o h0 roots h all proj Eo [= <- <-] Hl. pose proof (e_options _ Eo) as Ei. rewrite Ei in Hl.
  destruct (eb_loads _ _ _ Hl) as (-> & -> & ->). exists eb_project. split; [done|]. split; [done|]. split; [done|]. by apply eb_guarantees.
Qed.

Definition eb_result : ftree * string * cli_end :=
  index_cmd no_errors (λ _, "") None (program_run eb_surroundings e_ro eb_h (LoadOk e_all e_proj)) "index.scip" x_tree.
Example eb_exit : eb_result.2 = Exit 0 None.
Proof. vm_compute. reflexivity. Qed.
Example eb_scip_go : scip_go eb_surroundings no_flags "index.scip" x_tree eb_result.
Proof.
  apply (sg_index eb_surroundings no_flags "index.scip" x_tree e_ro eb_h (LoadOk e_all e_proj)); [vm_compute; reflexivity|].
  eapply loads_ok; [reflexivity|]. apply eb_load.
Qed.
Lemma eb_size c : eb_result.1.1 !! "index.scip" = Some (FReg c) → (Z.of_nat (slen c) < 2 ^ 63)%Z.
Proof.
  assert (H : match eb_result.1.1 !! "index.scip" with Some (FReg c) => Z.ltb (Z.of_nat (slen c)) (2 ^ 63) | _ => false end = true) by (vm_compute; reflexivity).
  intros E. rewrite E in H. by apply Z.ltb_lt.
Qed.

Local Open Scope Z_scope.
Definition eb_mo : orders :=
  Orders (or_packages eb_o) (λ p, map (mv_obj e_mv) (or_defs eb_o p)) (or_types eb_o) (or_ifaces eb_o) (or_imethods eb_o) (or_tmethods eb_o) (or_collect eb_o).
Definition eb_moved_it : iteration := Iteration (it_maps eb_it) eb_mo ["ex.org/p"] ["fmt"; "builtin"; "ex.org/p"] ["ex.org/p"].
Definition eb_moved : surroundings := Surroundings e_machine e_world (λ _, inr (mv_heap e_mv e_back eb_h0, [1%nat])) 9 e_fs' y_env
  (λ t, map (mv_obj e_mv) (y_mset t)) w_cok w_level (λ p, map (mv_obj e_mv) (y_scope p))
  (λ o, o_name o) x_u w_crc p_digest eb_moved_it no_errors (λ _, "...") "v0.1.26".
Lemma eb_whole : whole_idents e_mv eb_h0.
Proof.
  intros q p f i Hq Hf Hi. destruct (eb_heap0 _ _ Hq) as [[-> ->]|[-> ->]]; [|by apply elem_of_nil in Hf].
  apply elem_of_list_singleton in Hf as ->. enum Hi; subst i; reflexivity.
Qed.
Lemma eb_same_but : same_but_positions e_mv e_back eb_surroundings eb_moved no_flags.
Proof.
  pose proof e_opposite as Ho. split; try reflexivity; try exact Ho.
  - intros o h0 roots _ [= <- <-]. apply eb_whole.
  - split; intros z; cbn [eb_moved su_fs e_fs' fs_position fs_file eb_surroundings]; by rewrite (mv_cancel e_mv e_back Ho).
  - intros p o. cbn. unfold w_level, is_type_name. by destruct o.
  - intros o. cbn. by destruct o.
Qed.
Lemma eb_maps : maps_iterate eb_moved no_flags.
Proof.
  intros o h0 roots h all proj Eo [= <- <-] Hl. pose proof (e_options _ Eo) as Ei. rewrite Ei in Hl.
  apply mv_load_packages_back in Hl as (h1 & -> & Hl). destruct (eb_loads _ _ _ Hl) as (-> & -> & ->).
  destruct eb_iteration as (I1 & [I2 I2'] & I3). split; [exact I1|]. split; [|exact I3]. split.
  - destruct I2 as [J1 J2 J3 J4 J5 J6]. split; [exact J1|exact J2|exact J3|exact J4|exact J5|exact J6].
  - intros q p ti ob Hq Hp. rewrite mv_heap_lookup in Hq. destruct (eb_h !! q) as [p0|] eqn:Eq; [|done]. injection Hq as <-.
    cbn in Hp. destruct (p_info p0) as [ti0|] eqn:Ep; [|done]. injection Hp as <-.
    assert (Eor : or_defs eb_o (mv_pkg e_mv e_back p0) = or_defs eb_o p0) by (cbn; by rewrite Ep).
    cbn [eb_moved su_iteration eb_moved_it it_search eb_mo or_defs]. rewrite Eor. split.
    + intros (ob0 & -> & Hin)%elem_of_list_fmap. apply (I2' q p0 ti0 ob0 Eq Ep) in Hin as [i Hi]. exists i. cbn. by rewrite Hi.
    + intros [i Hi]. cbn in Hi. destruct (ti_defs ti0 i) as [ob0|] eqn:Ei0; [|done]. injection Hi as <-.
      apply elem_of_list_fmap. exists ob0. split; [done|]. apply (I2' q p0 ti0 ob0 Eq Ep). by exists i.
Qed.
Definition eb_moved_result : ftree * string * cli_end :=
  index_cmd no_errors (λ _, "...") None (program_run eb_moved e_ro (mv_heap e_mv e_back eb_h) (LoadOk e_all e_proj)) "index.scip" x_tree.
Lemma eb_moved_go : scip_go eb_moved no_flags "index.scip" x_tree eb_moved_result.
Proof.
  apply (sg_index eb_moved no_flags "index.scip" x_tree e_ro (mv_heap e_mv e_back eb_h) (LoadOk e_all e_proj)); [vm_compute; reflexivity|].
  eapply loads_ok; [reflexivity|]. apply mv_load_packages, eb_load.
Qed.
Lemma eb_moved_size c : eb_moved_result.1.1 !! "index.scip" = Some (FReg c) → (Z.of_nat (slen c) < 2 ^ 63)%Z.
Proof.
  assert (H : match eb_moved_result.1.1 !! "index.scip" with Some (FReg c) => Z.ltb (Z.of_nat (slen c)) (2 ^ 63) | _ => false end = true) by (vm_compute; reflexivity).
  intros E. rewrite E in H. by apply Z.ltb_lt.
Qed.
Lemma eb_moved_exit : eb_moved_result.2 = Exit 0 None.
Proof. vm_compute. reflexivity. Qed.
Lemma eb_builds : builds_once eb_surroundings no_flags.
Proof.
  intros o h0 roots _ [= <- <-] r p q g g' ->%elem_of_list_singleton Hp Hq Hg Hg' E.
  destruct (eb_heap0 _ _ Hg) as [[-> ->]|[-> ->]], (eb_heap0 _ _ Hg') as [[-> ->]|[-> ->]]; done.
Qed.
Lemma eb_edited : edited_surroundings e_surroundings eb_surroundings.
Proof.
  split; [done..|]. intros o. split; [done|]. intros q. unfold e_h0, eb_h0.
  destruct (decide (q = 1%nat)) as [->|H1]; [|destruct (decide (q = 3%nat)) as [->|H3]].
  - change (edited_package x_fs x_fs e_p0 eb_p0). split; [done..|]. intros f ->%elem_of_list_singleton. split; [|done..].
    intros i Hi. rewrite <- elem_of_node_idents in Hi. enum Hi; subst i; reflexivity.
  - change (edited_package x_fs x_fs e_fmt0 e_fmt0). by split.
  - rewrite !lookup_insert_ne, !lookup_singleton_ne by done. exact I.
Qed.
Lemma eb_loaded o P : loaded_by (seen e_mv e_back eb_surroundings eb_moved) no_flags o P → pr_pkgs P = [eb_p].
Proof.
  intros (h0 & roots & Eo & [= <- <-] & Hl & G). pose proof (e_options _ Eo) as Ei. rewrite Ei in Hl. destruct (eb_loads _ _ _ Hl) as (E1 & E2 & E3).
  pose proof (gg_order _ _ _ _ _ G) as [(K1 & K2 & K3) Ho]. rewrite E1, E3 in *.
  destruct (pr_pkgs P) as [|p l] eqn:Ep.
  { exfalso. eapply (elem_of_nil "ex.org/p"), (K1 "ex.org/p"). by eexists. }
  assert (∀ x, x ∈ p :: l → x = eb_p) as Hall.
  { intros x Hx. destruct (Ho x Hx) as (q & Hq & Hh). destruct (e_proj_in _ _ Hq) as [_ ->]. vm_compute in Hh. by injection Hh as <-. }
  rewrite (Hall p) in * by left. destruct l as [|p' l]; [done|]. exfalso. rewrite (Hall p') in * by (right; left).
  cbn [map] in K2. apply NoDup_cons in K2 as [K2 _]. apply K2. left.
Qed.
Definition symbols_of (ix : scip_index) : list (list string) := map (λ d, map i_symbol (d_symbols d)) (si_docs ix).
Definition index_of_result (r : ftree * string * cli_end) : option scip_index :=
  match r.1.1 !! "index.scip" with Some (FReg c) => read_index c | _ => None end.
(** the edited file has a local now; its other symbols are the same *)
Example C82_symbols : let p s := "scip-go gomod ex.org v1.0.0 `ex.org/p`/" +:+ s in
  option_map symbols_of (index_of_result e_result) = Some [[p "T#"; p ""; p "I#"; p "T#N()."; p "I#N."]] ∧
  option_map symbols_of (index_of_result eb_moved_result) = Some [[p "T#"; p "T#N()."; p ""; p "I#"; p "I#N."; "local 0"]].
Proof. split; vm_compute; reflexivity. Qed.
Example C82_command_example : ∃ c c' ix ix' d d', e_result.1.1 !! "index.scip" = Some (FReg c) ∧ eb_moved_result.1.1 !! "index.scip" = Some (FReg c') ∧
  read_index c = Some ix ∧ read_index c' = Some ix' ∧ document_of [e_p] (si_docs ix) e_p y_file d ∧ document_of [eb_p] (si_docs ix') eb_p eb_file d' ∧ d_path d' = d_path d ∧
  map unrelated (filter (λ i, ¬ is_local (i_symbol i)) (d_symbols d')) ≡ₚ map unrelated (filter (λ i, ¬ is_local (i_symbol i)) (d_symbols d)).
Proof.
  destruct (C82_whole_command e_mv e_back e_surroundings eb_surroundings eb_moved no_flags "index.scip" x_tree x_tree "index.scip" "index.scip" e_result.1.1 eb_moved_result.1.1 e_result.1.2 eb_moved_result.1.2
    eb_edited eb_same_but e_works eb_works eb_builds eb_maps) as (o & P & P1 & c & c' & ix & ix' & HP & HP1 & Hed & E1 & E2 & E3 & E4 & HD).
  - apply plain_regular. split; [done|]. right. by eexists.
  - apply plain_regular. split; [done|]. right. by eexists.
  - pose proof e_scip_go as H. rewrite <- e_exit. by destruct e_result as [[]].
  - pose proof eb_moved_go as H. rewrite <- eb_moved_exit. by destruct eb_moved_result as [[]].
  - apply e_size.
  - apply eb_moved_size.
  - destruct (e_loaded o P HP) as (_ & _ & _ & _ & Epk). pose proof (eb_loaded o P1 HP1) as Epk1. rewrite Epk, Epk1 in HD. clear Hed HP HP1 Epk Epk1.
    destruct (HD e_p eb_p y_file eb_file y_ti eb_ti) as (d & d' & D1 & D2 & D3 & D4 & _); [left|left|reflexivity|reflexivity|reflexivity|left|left|reflexivity|].
    exists c, c', ix, ix', d, d'. exact (conj E1 (conj E2 (conj E3 (conj E4 (conj D1 (conj D2 (conj D3 D4))))))).
Qed.
