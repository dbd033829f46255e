(** A whole run of `scip-go index`, for C64: the project of ExDet, in module ex.org at /src (git tag
    v1.0.0), importing fmt of the standard library. *)
From Coq Require Import Ascii String.
From stdpp Require Import prelude strings gmap sorting.
From Verif Require Import GoStr Scip GoTypes Ast Packages Symbols Document Lookup Pass1 Pass2 Paths Env Loader Index
  SpecSymbol SpecDecl SpecLookup SpecOcc SpecIndex P_Symbols P_Pass1 P_Lookup P_Pass2 P_Occ P_Index PropIndex PropLoader
  Output Proto Cli PropCli Options PropPaths PropOptions Url PropUrl
  Quote Fingerprint SpecTypes P_Finger PropFinger Impls P_Rel P_Ident SpecImpl P_Filter P_Mem P_Extract P_Impl PropImpl PropDet PropCross
  ExDecl ExOcc ExIndex ExImpl ExDet Program PropEnd.
Open Scope string_scope.
Open Scope list_scope.

(** what packages.Load returns *)
Definition e_p0 : gpkg := GPkg 1 "ex.org/p" "p" (Some (GMod "ex.org" "" "/src" "/src/go.mod" None)) [("fmt", 3)] [y_file] (Some w_p) (Some y_ti).
Definition e_fmt0 : gpkg := GPkg 3 "fmt" "fmt" None [] [] (Some w_fmt) None.
Definition e_h0 : pheap := {[1 := e_p0; 3 := e_fmt0]}.
(** the packages normalised *)
Definition e_p : gpkg := GPkg 1 "ex.org/p" "p" (Some (GMod "ex.org" "v1.0.0" "/src" "/src/go.mod" None)) [("fmt", 3)] [y_file] (Some w_p) (Some y_ti).
Definition e_fmt : gpkg := GPkg 3 "fmt" "fmt" (Some (bare_module stdlib_module_path "go1.22")) [] [] (Some w_fmt) None.
Definition e_machine : machine := Machine (Some "/src") (CmdResult ("/src" +:+ text_nl) true)
  (λ p, if String.eqb p "/src/go.mod" then StatFound else StatNotExist) (λ d, CmdResult "" false)
  (λ d, CmdResult ("v1.0.0" +:+ text_nl) true) (λ d, CmdResult "" false) (λ d, CmdResult "{json}" true)
  (λ s, if String.eqb s "{json}" then Some (Some "1.22") else None)
  (λ p, if String.eqb p "/src/go.mod" then Parsed (Some "ex.org") else NoFile) (λ p, Some p) None ["index"].
Definition e_world : world := World (λ _, GoModUnreadable) (λ _, None).
Definition e_o : index_opts := IOpts "/src" "v1.0.0" "ex.org" "go1.22" false false false ["index"].
Definition e_builtin : gpkg := builtin_pkg 9 e_o.
Definition e_h : pheap := <[3 := e_fmt]> (<[1 := e_p]> (<[9 := e_builtin]> e_h0)).
Definition e_all : ptab := <["fmt" := 3]> (<["ex.org/p" := 1]> {["builtin" := 9]}).
Definition e_proj : ptab := <["ex.org/p" := 1]> ∅.
Definition e_it : iteration := Iteration x_mo y_o ["ex.org/p"] ["fmt"; "builtin"; "ex.org/p"] ["ex.org/p"].
Definition e_surroundings : surroundings := Surroundings e_machine e_world (λ _, inr (e_h0, [1])) 9 x_fs y_env y_mset w_cok w_level y_scope
  (λ o, o_name o) x_u w_crc p_digest e_it no_errors (λ _, "") "v0.1.26".
Definition e_project : project := Project y_env y_objs x_fs e_h e_all e_proj [e_p].

Lemma e_options o : make_options e_machine no_flags = Ok (Some o) → ro_index o = e_o.
Proof. intros E. vm_compute in E. by injection E as <-. Qed.
Lemma e_heap0 q p : e_h0 !! q = Some p → q = 1 ∧ p = e_p0 ∨ q = 3 ∧ p = e_fmt0.
Proof. unfold e_h0. rewrite !lookup_insert_Some, lookup_singleton_Some. naive_solver. Qed.
Lemma e_heap q p : e_h !! q = Some p → q = 1 ∧ p = e_p ∨ q = 3 ∧ p = e_fmt ∨ q = 9 ∧ p = e_builtin.
Proof. unfold e_h. rewrite !lookup_insert_Some. intros [[<- <-]|[H [[<- <-]|[H1 [[<- <-]|[H2 Hx]]]]]]; [tauto|tauto|tauto|]. destruct (e_heap0 _ _ Hx) as [[-> _]|[-> _]]; done. Qed.
Lemma e_all_in k q : e_all !! k = Some q → k = "ex.org/p" ∧ q = 1 ∨ k = "fmt" ∧ q = 3 ∨ k = "builtin" ∧ q = 9.
Proof. unfold e_all. rewrite !lookup_insert_Some, lookup_singleton_Some. intros [[<- <-]|[_ [[<- <-]|[_ [<- <-]]]]]; tauto. Qed.
Lemma e_proj_in k q : e_proj !! k = Some q → k = "ex.org/p" ∧ q = 1.
Proof. unfold e_proj. rewrite lookup_insert_Some, lookup_empty. intros [[<- <-]|[_ ?]]; done. Qed.
Lemma e_input : load_input 9 e_h0 [1].
Proof.
  split.
  - intros p g r Hp Hr. destruct (e_heap0 _ _ Hp) as [[-> ->]|[-> ->]]; cbn in Hr; [|by apply elem_of_nil in Hr]. apply elem_of_list_singleton in Hr as ->. by eexists.
  - intros p ->%elem_of_list_singleton. by eexists.
  - reflexivity.
  - intros p g Hp. destruct (e_heap0 _ _ Hp) as [[-> ->]|[-> ->]]; reflexivity.
Qed.
(** there is only one way to load it *)
Lemma e_normal_p : normalize_package e_o e_world e_p0 = Ok e_p.
Proof. vm_compute. reflexivity. Qed.
Lemma e_normal_fmt : normalize_package e_o e_world e_fmt0 = Ok e_fmt.
Proof. vm_compute. reflexivity. Qed.
Lemma one_step o w (R : lstate → Prop) h t p g st s : rtc (lstep o w) (LState h t (p :: st)) s → ls_stack s = [] → h !! p = Some g → skips h t g = false →
  (∀ g' order s', normalize_package o w g = Ok g' → order ≡ₚ map snd (p_imports g') → rtc (lstep o w) (LState (<[p := g']> h) (<[p_path g' := p]> t) (order ++ st)) s' → ls_stack s' = [] → R s') → R s.
Proof.
  intros Hr Hs Hg Hk H. inversion Hr as [x|x y z H1 H2]; subst; [done|]. inversion H1 as [? ? ? g1 ? Hg1 Hk1|? ? ? g1 g' order ? Hg1 Hk1 Hn Ho]; subst; [congruence|].
  assert (g1 = g) as -> by congruence. eauto.
Qed.
Lemma e_loads h all proj : load_packages e_o e_world 9 e_h0 [1] h all proj → h = e_h ∧ all = e_all ∧ proj = e_proj.
Proof.
  intros Hl. unfold load_packages in Hl. change (with_default_version e_o) with e_o in Hl. inversion Hl as [|? ? ? ? ? h1 t1 g q h2 t2 pj2 Ha Hg Hq Hl']; subst. clear Hl.
  assert (X : LState h1 t1 [] = LState e_h e_all []).
  { revert Ha. unfold add_imports. generalize (eq_refl : ls_stack (LState h1 t1 []) = []). generalize (LState h1 t1 []). intros s Hs Hr.
    eapply (one_step e_o e_world (λ s, s = LState e_h e_all [])); [exact Hr|exact Hs|reflexivity|vm_compute; reflexivity|]. clear Hr Hs s.
    intros g' order s Hn Ho Hr Hs. rewrite e_normal_p in Hn. injection Hn as <-. cbn [p_imports e_p map snd] in Ho. apply Permutation_singleton_r in Ho as ->.
    eapply (one_step e_o e_world (λ s, s = LState e_h e_all [])); [exact Hr|exact Hs|reflexivity|vm_compute; reflexivity|]. clear Hr Hs s.
    intros g' order s Hn Ho Hr Hs. rewrite e_normal_fmt in Hn. injection Hn as <-. cbn [p_imports e_fmt map snd] in Ho. apply Permutation_nil_r in Ho as ->. cbn [app] in Hr.
    inversion Hr as [x|x y z H1 H2]; subst; [reflexivity|]. inversion H1. }
  injection X as -> ->. vm_compute in Hg. injection Hg as <-. vm_compute in Hq. injection Hq as <-. inversion Hl'; subst. done.
Qed.
Lemma e_load : load_packages e_o e_world 9 e_h0 [1] e_h e_all e_proj.
Proof.
  destruct (run_load 20 e_o e_world 9 e_h0 [1]) as [[[h all] proj]|] eqn:E; [|vm_compute in E; discriminate].
  apply run_load_sound in E. by destruct (e_loads _ _ _ E) as (-> & -> & ->).
Qed.
Lemma e_analysable : analysable y_env y_mset y_objs y_scope e_h e_all e_proj.
Proof.
  split.
  - apply y_methods.
  - intros k q H. destruct (e_all_in _ _ H) as [[-> ->]|[[-> ->]|[-> ->]]]; eexists _, _; split; [reflexivity|done|reflexivity|done|reflexivity|done].
  - intros k q H. destruct (e_proj_in _ _ H) as [-> ->]; eexists _, _, _; (split; [reflexivity|done]).
  - intros k q p o H Hn Hp Ho. destruct (e_all_in _ _ H) as [[-> ->]|[[-> ->]|[-> ->]]]; [done| |]; vm_compute in Hp; injection Hp as <-.
    + enum Ho; subst o; (split; [apply y_object, elem_of_list_In; vm_compute; tauto|by eexists]).
    + enum Ho.
Qed.
Lemma e_typed : typed_file x_fs y_ti (imports_of e_h e_p) y_objs y_file.
Proof.
  destruct y_typed as [[H1 H2 H3 H4 H5 H6 H7 H8 H9] Hu Hc]. split; [split; try assumption|exact Hu|exact Hc].
  intros ptr nm p l path imp Hin Himp. enum Hin.
Qed.
Lemma e_order : project_in_order e_h e_proj [e_p].
Proof.
  split.
  - split; [|split].
    + intros k. cbn [map p_path e_p]. split; [intros ->%elem_of_list_singleton; by eexists|].
      intros [q H]. destruct (e_proj_in _ _ H) as [-> _]. left.
    + apply NoDup_singleton.
    + repeat constructor.
  - intros p ->%elem_of_list_singleton. exists 1. done.
Qed.
Lemma e_iteration : iteration_ok e_h e_all e_proj e_it.
Proof.
  assert (K1 : key_order e_proj ["ex.org/p"]) by (unfold key_order; vm_compute; repeat constructor).
  split; [split; intros; done|]. split; [|split; [exact K1|split; [|exact K1]]].
  - split; [split; intros; done|]. intros q p ti ob Hq Hp. destruct (e_heap _ _ Hq) as [[_ ->]|[[_ ->]|[_ ->]]]; [|done|done].
    injection Hp as <-. cbn [y_ti ti_defs]. split.
    + intros H. enum H; subst ob; [by exists 1|by exists 3|by exists 4|by exists 7].
    + intros [i H]. apply tab_in in H. apply elem_of_list_In, (List.in_map snd _ _ H).
  - apply NoDup_Permutation; [|apply NoDup_fst_map_to_list|].
    + repeat (apply NoDup_cons; split; [intros H; enum H|]). constructor.
    + intros k. rewrite !elem_of_list_In. vm_compute. tauto.
Qed.
Lemma e_guarantees o : ro_index o = e_o → go_guarantees e_surroundings o e_h0 [1] e_project.
Proof.
  intros Eo. split; cbn [pr_env pr_objs pr_fs pr_heap pr_all pr_proj pr_pkgs e_project e_surroundings su_builtin su_env su_fs su_mset su_scope su_iteration].
  - apply e_input.
  - intros p q g g' Hp Hq E. destruct (e_heap0 _ _ Hp) as [[-> ->]|[-> ->]], (e_heap0 _ _ Hq) as [[-> ->]|[-> ->]]; done.
  - intros p g Hp E. destruct (e_heap0 _ _ Hp) as [[-> ->]|[-> ->]]; done.
  - done.
  - done.
  - apply e_order.
  - split.
    + intros p f ->%elem_of_list_singleton ->%elem_of_list_singleton. exists y_ti, "/src/p.go".
      split; [done|]. split; [apply e_typed|]. split; [apply y_defs_at|done].
    + intros i j p f q f' name Hi Hj _ _. apply lookup_lt_Some in Hi, Hj. cbn in Hi, Hj. lia.
  - intros p f name i ->%elem_of_list_singleton ->%elem_of_list_singleton Hfn Hi. rewrite <- elem_of_node_idents in Hi.
    unfold file_of in Hfn. vm_compute in Hfn. injection Hfn as <-. enum Hi; subst i; reflexivity.
  - apply e_analysable.
  - apply e_iteration.
Qed.
Lemma e_works : go_works e_surroundings no_flags.
Proof.
  intros o h0 roots h all proj Eo [= <- <-] Hl. pose proof (e_options _ Eo) as Ei. rewrite Ei in Hl.
  destruct (e_loads _ _ _ Hl) as (-> & -> & ->). exists e_project. split; [done|]. split; [done|]. split; [done|]. by apply e_guarantees.
Qed.

(** the run writes index.scip *)
Definition e_ro : run_opts := ROpts e_o false ["./..."].
Definition e_result : ftree * string * cli_end :=
  index_cmd no_errors (λ _, "") None (program_run e_surroundings e_ro e_h (LoadOk e_all e_proj)) "index.scip" x_tree.
Example e_exit : e_result.2 = Exit 0 None.
Proof. vm_compute. reflexivity. Qed.
Example e_scip_go : scip_go e_surroundings no_flags "index.scip" x_tree e_result.
Proof.
  apply (sg_index e_surroundings no_flags "index.scip" x_tree e_ro e_h (LoadOk e_all e_proj)); [vm_compute; reflexivity|].
  eapply loads_ok; [reflexivity|]. apply e_load.
Qed.
Lemma e_size c : e_result.1.1 !! "index.scip" = Some (FReg c) → (Z.of_nat (slen c) < 2 ^ 63)%Z.
Proof.
  assert (H : match e_result.1.1 !! "index.scip" with Some (FReg c) => Z.ltb (Z.of_nat (slen c)) (2 ^ 63) | _ => false end = true) by (vm_compute; reflexivity).
  intros E. rewrite E in H. by apply Z.ltb_lt.
Qed.
(** the file it writes, decoded *)
Example C64_example : ∃ P ix content, pr_heap P = e_h ∧ pr_all P = e_all ∧ pr_proj P = e_proj ∧
  (∀ p, p ≠ "index.scip" → e_result.1.1 !! p = x_tree !! p) ∧
  e_result.1.1 !! "index.scip" = Some (FReg content) ∧ read_index content = Some ix ∧ right_index e_ro P ix.
Proof.
  destruct (C64_index_file e_surroundings no_flags "index.scip" x_tree "index.scip" e_result.1.1 e_result.1.2 ["src"]) as (H1 & o & P & content & ix & HP & Hc & Hix & Hri & _).
  - apply e_works.
  - done.
  - repeat constructor; done.
  - apply plain_regular. split; [done|]. right. by eexists.
  - pose proof e_scip_go as H. rewrite <- e_exit. by destruct e_result as [[]].
  - apply e_size.
  - destruct HP as (h0 & roots & Eo & [= <- <-] & Hl & G). vm_compute in Eo. injection Eo as <-. fold e_o in Hl, Hri. fold e_ro in Hri.
    destruct (e_loads _ _ _ Hl) as (E1 & E2 & E3). exists P, ix, content. exact (conj E1 (conj E2 (conj E3 (conj H1 (conj Hc (conj Hix Hri)))))).

Qed.
Example e_view :
  match e_result.1.1 !! "index.scip" with
  | Some (FReg c) => option_map (λ ix, (md_root (si_meta ix), map (λ d, (d_path d, map oc_symbol (d_occs d))) (si_docs ix), map i_symbol (si_exts ix))) (read_index c)
  | _ => None end =
  let p s := "scip-go gomod ex.org v1.0.0 `ex.org/p`/" +:+ s in
  Some ("file:///src", [("p.go", [p ""; p "I#"; p "I#N."; p "T#"; p "T#"; p "T#N()."])], ["scip-go gomod github.com/golang/go/src go1.22 fmt/Buf#"]).
Proof. vm_compute. reflexivity. Qed.
(** the command cannot crash here *)
Example C64_no_crash_example : ∀ m, make_options e_machine no_flags ≠ Panic m.
Proof. intros m E. vm_compute in E. discriminate. Qed.
(** ... and it ends *)
Example C64_ends_example : ∃ r, scip_go e_surroundings no_flags "index.scip" x_tree r.
Proof. apply (C64_ends e_surroundings no_flags "index.scip" x_tree). intros o h0 roots [= <- <-]. apply e_input. Qed.
(** with a full disk, the output file is removed *)
Definition e_full : surroundings := Surroundings e_machine e_world (λ _, inr (e_h0, [1])) 9 x_fs y_env y_mset w_cok w_level y_scope
  (λ o, o_name o) x_u w_crc p_digest e_it (Sys None (λ n, if Nat.eqb n 1 then Some "no space left on device" else None) "" None None) (λ _, "") "v0.1.26".
Example C64_failure_example : ∃ t' out e, scip_go e_full no_flags "index.scip" x_tree (t', out, Exit 1 e) ∧ t' = delete "index.scip" x_tree.
Proof.
  destruct (index_cmd (su_sys e_full) (λ _, "") None (program_run e_full e_ro e_h (LoadOk e_all e_proj)) "index.scip" x_tree) as [[t' out] [code e]] eqn:E.
  assert (code = 1) as ->. { apply (f_equal (λ r, match r.2 with Exit c _ => c end)) in E. vm_compute in E. done. }
  assert (H : scip_go e_full no_flags "index.scip" x_tree (t', out, Exit 1 e)).
  { rewrite <- E. apply (sg_index e_full no_flags "index.scip" x_tree e_ro e_h (LoadOk e_all e_proj)); [vm_compute; reflexivity|].
    eapply loads_ok; [reflexivity|]. apply e_load. }
  exists t', out, e. split; [exact H|].
  destruct (C64_failure e_full no_flags "index.scip" x_tree t' out e) as [->| ->]; [split; [done|right; by eexists]|done|done|exact H| |done].
  exfalso. apply (f_equal (λ r, r.1.1 !! "index.scip")) in E. vm_compute in E. discriminate.
Qed.
