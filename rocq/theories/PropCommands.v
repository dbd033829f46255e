(** C71: `scip-go packages` and `scip-go missing`; C72: the memory profile. *)
From Coq Require Import Ascii String.
From stdpp Require Import prelude strings gmap relations sorting.
From Verif Require Import GoStr Scip GoTypes Packages Symbols Document Lookup Pass1 Pass2 Paths Env
  Loader Index Ast SpecSymbol SpecDecl SpecLookup SpecOcc SpecIndex
  P_Symbols P_Pass1 P_Link P_Lookup P_Pass2 P_Occ P_Scope P_Index P_Doc P_Sort PropModule PropIndex PropLoader P_Loader P_Load
  Output Proto P_Proto Cli PropCli Options PropDet PropCross PropNav Program Commands PropEnd.
Open Scope string_scope.
Open Scope list_scope.

(** *** Specification *)
(** l lists the strings with property Q, in the order of their bytes, each once *)
Definition sorted_listing (Q : string → Prop) (l : list string) : Prop := (∀ k, k ∈ l ↔ Q k) ∧ NoDup l ∧ StronglySorted str_le l.
(** the path of a package that was asked for *)
Definition root_path (h0 : pheap) (roots : list nat) (k : string) : Prop := ∃ p g, p ∈ roots ∧ h0 !! p = Some g ∧ p_path g = k.
(** ... of one that it needs (itself included) *)
Definition needed_path (h0 : pheap) (roots : list nat) (k : string) : Prop := ∃ p g, reachable h0 roots p ∧ h0 !! p = Some g ∧ p_path g = k.

(** *** The project packages are those asked for *)
Lemma steps_same o w s s' : rtc (lstep o w) s s' → no_std_prefix (ls_heap s) → same_graph (ls_heap s) (ls_heap s').
Proof.
  induction 1 as [s|[h t st] [h1 t1 st1] s2 H1 H2 IH]; intros Hn; [apply same_graph_refl|]. cbn in *.
  pose proof (lstep_same _ _ _ _ _ _ _ _ Hn H1) as Hs. eapply same_graph_trans; [exact Hs|]. apply IH. by eapply no_std_same.
Qed.
Lemma loop_project o w hb h t pj ps h' t' pj' : load_loop o w h t pj ps h' t' pj' → no_std_prefix hb → same_graph hb h →
  ∀ k, is_Some (pj' !! k) → is_Some (pj !! k) ∨ ∃ p g, p ∈ ps ∧ hb !! p = Some g ∧ p_path g = k.
Proof.
  induction 1 as [|h t pj p ps h1 t1 g q h2 t2 pj2 Ha Hg Hq Hl IH]; intros Hn Hsm k Hk; [by left|].
  assert (Hsm1 : same_graph hb h1).
  { eapply same_graph_trans; [exact Hsm|]. apply (steps_same o w _ _ Ha). cbn. by eapply no_std_same. }
  destruct (IH Hn Hsm1 k Hk) as [Hpj|(p' & g' & Hp' & Hg' & Hk')].
  - destruct (decide (p_path g = k)) as [<-|Hne].
    + right. destruct (same_graph_lookup_r _ _ _ _ Hsm1 Hg) as (g0 & Hg0 & (E & _)). exists p, g0. split; [left|]. by split.
    + left. by rewrite lookup_insert_ne in Hpj.
  - right. exists p', g'. split; [by right|]. by split.
Qed.
Lemma project_roots o w bp h0 roots h all proj : load_input bp h0 roots → load_packages o w bp h0 roots h all proj →
  ∀ k, is_Some (proj !! k) ↔ root_path h0 roots k.
Proof.
  intros Hin Hl k. split.
  - intros Hk. destruct (loop_project _ _ _ _ _ _ _ _ _ _ Hl (hb_nostd o bp h0 roots Hin) (same_graph_refl _) k Hk) as [Hk'|(p & g & Hp & Hg & E)].
    + rewrite lookup_empty in Hk'. by destruct Hk'.
    + exists p, g. split; [done|]. split; [|done].
      destruct (hb_cases o bp h0 _ _ Hg) as [[-> ->]|Hg']; [|done]. destruct (in_roots _ _ _ Hin _ Hp) as [x Hx]. by rewrite (in_builtin _ _ _ Hin) in Hx.
  - intros (p & g & Hp & Hg & <-). by eapply (C26_project_packages o w bp h0 roots h all proj Hin Hl).
Qed.
Lemma listing_unique Q l l' : sorted_listing Q l → sorted_listing Q l' → l = l'.
Proof.
  intros (H1 & H2 & H3) (H1' & H2' & H3'). apply (StronglySorted_unique str_le); [done|done|].
  apply NoDup_Permutation; [done|done|]. intros k. by rewrite H1, H1'.
Qed.

(** C71: `scip-go packages` that ends with code 0 prints, after the progress messages: a title, the paths of the packages
    asked for, a second title, and the paths of all packages they need (they themselves and builtin included), sorted. *)
Theorem C71_packages S f out :
  (∀ o h0 roots, su_packages S o = inr (h0, roots) → load_input (su_builtin S) h0 roots ∧ variants_agree h0 roots) →
  packages_cmd S f (out, Exit 0 None) →
  ∃ o h0 roots current deps, make_options (su_machine S) f = Ok (Some o) ∧ su_packages S o = inr (h0, roots) ∧
    sorted_listing (root_path h0 roots) current ∧
    sorted_listing (λ k, k = "builtin" ∨ needed_path h0 roots k) deps ∧
    out = su_noise S O +:+ print_lines (["Current packages"] ++ current ++ ["Dependency packages"] ++ deps).
Proof.
  intros Hok Hr. inversion Hr as [| | |o h all proj po ao Eo Hl Hpo Hao Eout]. subst out. clear Hr.
  inversion Hl as [|h0 roots m h' Ha Hp|h0 roots h' all' proj' Ha Hload]; subst. destruct (Hok _ _ _ Ha) as [Hin Hva].
  exists o, h0, roots, (sorted_keys po), (sorted_keys ao). split; [done|]. split; [done|].
  destruct (sorted_keys_lists _ _ Hpo) as (H1 & H2 & H3). destruct (sorted_keys_lists _ _ Hao) as (H4 & H5 & H6).
  split; [split; [|done]; intros k; rewrite H1; by apply (project_roots _ _ _ _ _ _ _ _ Hin Hload)|].
  split; [split; [|done]; intros k; rewrite H4|reflexivity].
  destruct (C26_reachable_packages_loaded _ _ _ _ _ _ _ _ Hin Hload Hva) as [H7 H8]. split; [apply H8|].
  intros [->|(p & g & Hp & Hg & <-)]; [|by eapply H7].
  destruct (load_final _ _ _ _ _ _ _ _ Hin Hload) as [[E Hinv _] _].
  pose proof (load_loop_final _ _ _ (λ p, p = su_builtin S ∨ reachable h0 roots p) _ _ _ _ _ _ _ (hb_nostd _ _ _ _ Hin) (hb_closed _ _ _ _ Hin) (Rch_closed _ _ _ _ Hin)
    ltac:(intros p Hp; split; [right; by constructor|]; destruct (in_roots _ _ _ Hin p Hp) as [g Hg]; exists g; by eapply hb_lookup)
    (init_final _ _ _ roots) Hload) as (_ & _ & Hmono & _).
  destruct (Hmono (su_builtin S)) as (g1 & q1 & gq1 & Hg1 & Hq1 & _).
  { eexists _, (su_builtin S), _. rewrite lookup_insert. split; [done|]. split; [apply lookup_singleton|]. done. }
  destruct (same_graph_lookup_r _ _ _ _ (li_same _ _ _ _ _ Hinv) Hg1) as (x & Hx & (Hx1 & _)). cbn in Hx1.
  rewrite lookup_insert in Hx. injection Hx as <-. cbn in Hx1. rewrite <- Hx1. eauto.
Qed.

(** ... always the same text, whatever the orders in which imports are followed and maps are iterated. *)
Theorem C71_packages_deterministic S f out out' :
  (∀ o h0 roots, su_packages S o = inr (h0, roots) → load_input (su_builtin S) h0 roots ∧ variants_agree h0 roots) →
  packages_cmd S f (out, Exit 0 None) → packages_cmd S f (out', Exit 0 None) → out = out'.
Proof.
  intros Hok H H'. destruct (C71_packages S f out Hok H) as (o & h0 & roots & c & d & Eo & Ea & Hc & Hd & ->).
  destruct (C71_packages S f out' Hok H') as (o' & h0' & roots' & c' & d' & Eo' & Ea' & Hc' & Hd' & ->).
  rewrite Eo in Eo'. injection Eo' as <-. rewrite Ea in Ea'. injection Ea' as <- <-.
  by rewrite (listing_unique _ _ _ Hc Hc'), (listing_unique _ _ _ Hd Hd').
Qed.

(** ... from which both lists can be read back, as import paths contain neither line breaks nor spaces. *)
Definition line_ok (x : string) : Prop := "010"%char ∉ list_ascii_of_string x.
Definition path_ok (x : string) : Prop := line_ok x ∧ " "%char ∉ list_ascii_of_string x.
Lemma line_cons x y (a b : string) : line_ok x → line_ok y → x +:+ String "010" a = y +:+ String "010" b → x = y ∧ a = b.
Proof.
  unfold line_ok. revert y. induction x as [|c x IH]; intros y Hx Hy E.
  - destruct y as [|d y].
    + change (String "010" a = String "010" b) in E. by injection E.
    + exfalso. change (String "010" a = String d (y +:+ String "010" b)) in E. injection E as <- _. apply Hy. left.
  - destruct y as [|d y].
    + exfalso. change (String c (x +:+ String "010" a) = String "010" b) in E. injection E as -> _. apply Hx. left.
    + change (String c (x +:+ String "010" a) = String d (y +:+ String "010" b)) in E. injection E as <- E.
      cbn [list_ascii_of_string] in Hx, Hy. apply not_elem_of_cons in Hx as [_ Hx]. apply not_elem_of_cons in Hy as [_ Hy].
      destruct (IH y Hx Hy E) as [-> ->]. done.
Qed.
Lemma print_lines_cons x l : print_lines (x :: l) = x +:+ String "010" (print_lines l).
Proof.
  unfold print_lines. cbn [map]. rewrite P_Proto.concat_cons. by rewrite <- app_assoc.
Qed.
Lemma print_lines_inj l l' : Forall line_ok l → Forall line_ok l' → print_lines l = print_lines l' → l = l'.
Proof.
  intros Hl. revert l'. induction Hl as [|x l Hx Hl IH]; intros l' Hl' E.
  - destruct Hl' as [|y l' Hy Hl']; [done|]. exfalso. rewrite print_lines_cons in E. by destruct y.
  - destruct Hl' as [|y l' Hy Hl']; [exfalso; rewrite print_lines_cons in E; by destruct x|].
    rewrite !print_lines_cons in E. apply line_cons in E as [-> E]; [|done|done]. by rewrite (IH l' Hl' E).
Qed.
Theorem C71_readable c d c' d' : Forall path_ok c → Forall path_ok d → Forall path_ok c' → Forall path_ok d' →
  print_lines (["Current packages"] ++ c ++ ["Dependency packages"] ++ d) =
  print_lines (["Current packages"] ++ c' ++ ["Dependency packages"] ++ d') → c = c' ∧ d = d'.
Proof.
  intros Hc Hd Hc' Hd' E.
  assert (Hall : ∀ c d, Forall path_ok c → Forall path_ok d → Forall line_ok (["Current packages"] ++ c ++ ["Dependency packages"] ++ d)).
  { clear. intros c d Hc Hd. assert (Hp : ∀ l, Forall path_ok l → Forall line_ok l) by (intros l Hl; eapply Forall_impl; [exact Hl|]; by intros x [H _]).
    assert (Ht : ∀ x, bool_decide (line_ok x) = true → line_ok x) by (intros x Hx; by apply bool_decide_eq_true in Hx).
    apply Forall_app. split; [repeat constructor; by apply Ht|]. apply Forall_app. split; [auto|]. apply Forall_app.
    split; [repeat constructor; by apply Ht|auto]. }
  apply print_lines_inj in E; [|by apply Hall..]. cbn [app] in E. injection E as E. clear Hall.
  assert (Ht : ¬ path_ok "Dependency packages").
  { intros [_ H]. apply H. apply (bool_decide_eq_true_1 _). reflexivity. }
  revert c' Hc' E. induction Hc as [|x c Hx Hc IH]; intros c' Hc' E.
  - destruct Hc' as [|y c' Hy Hc']; [by injection E|]. injection E as <- _. done.
  - destruct Hc' as [|y c' Hy Hc']; [injection E as -> _; done|]. injection E as <- E. destruct (IH c' Hc' E) as [-> ->]. done.
Qed.

(** *** scip-go missing *)
Lemma add_documents_keep fs root l (docs docs' : docmap) : res_fold (add_document fs root) docs l = Ok docs' →
  (∀ n, is_Some (docs !! n) → is_Some (docs' !! n)) ∧ ∀ f n, f ∈ l → fs_file fs (file_package_pos f) = Some n → is_Some (docs' !! n).
Proof.
  revert docs. induction l as [|f l IH]; intros docs E; [injection E as <-; split; [done|]; by intros f n ?%elem_of_nil|].
  cbn [res_fold] in E. unfold add_document at 1, file_name in E. destruct (fs_file fs (file_package_pos f)) as [m|] eqn:Em; [|done].
  cbn [res_bind] in E. destruct (IH _ E) as [H1 H2]. split.
  - intros n Hn. apply H1. destruct (decide (m = n)) as [<-|Hne]; [by rewrite lookup_insert|by rewrite lookup_insert_ne].
  - intros f' n [->|Hf]%elem_of_cons Hn; [|by eapply H2]. apply H1. assert (m = n) as <- by congruence. by rewrite lookup_insert.
Qed.
Lemma syntaxes_keep digest env fs root l (st st' : docmap * global) : res_fold (visit_package_syntax digest env fs root) st l = Ok st' →
  (∀ n, is_Some (st.1 !! n) → is_Some (st'.1 !! n)) ∧
  ∀ p f n, p ∈ l → f ∈ p_syntax p → fs_file fs (file_package_pos f) = Some n → is_Some (st'.1 !! n).
Proof.
  revert st. induction l as [|p l IH]; intros st E; [injection E as <-; split; [done|]; by intros p f n ?%elem_of_nil|].
  cbn [res_fold] in E. destruct (visit_package_syntax digest env fs root st p) as [st1|] eqn:E1; [|done]. cbn [res_bind] in E.
  destruct (IH _ E) as [H1 H2].
  assert (H3 : (∀ n, is_Some (st.1 !! n) → is_Some (st1.1 !! n)) ∧ ∀ f n, f ∈ p_syntax p → fs_file fs (file_package_pos f) = Some n → is_Some (st1.1 !! n)).
  { unfold visit_package_syntax in E1. destruct (p_syntax p) as [|f0 fl]; [injection E1 as <-; split; [done|]; by intros f n ?%elem_of_nil|].
    destruct (p_info p) as [ti|]; [|done]. destruct (visit_package_table _ _ _ _ _) as [tbl|]; [|done]. cbn [res_bind] in E1.
    destruct (res_fold (add_document fs root) st.1 (f0 :: fl)) as [docs|] eqn:Ed; [|done]. injection E1 as <-. cbn [fst].
    exact (add_documents_keep _ _ _ _ _ Ed). }
  destruct H3 as [H3 H4]. split; [auto|]. intros q f n [->|Hq]%elem_of_cons Hf Hn; eauto.
Qed.
Lemma list_missing_nil digest env fs h root proj o1 o2 l : o1 ≡ₚ o2 →
  list_missing digest env fs h root proj o1 o2 = Ok l → l = [].
Proof.
  intros Hp. unfold list_missing. set (pk := in_order h proj). cbv zeta. fold (in_order h proj o1). fold (in_order h proj o2). fold pk.
  destruct (res_fold (visit_package_syntax digest env fs root) (∅, new_global) (pk o1)) as [st|] eqn:E; [|done]. cbn [res_bind].
  destruct (syntaxes_keep _ _ _ _ _ _ _ E) as [_ H2].
  assert (Hf : ∀ f n, f ∈ List.concat (map p_syntax (pk o2)) → fs_file fs (file_package_pos f) = Some n → is_Some (st.1 !! n)).
  { intros f n (p & Hpk & Hf)%elem_of_concat_map Hn. eapply H2; [|done|done]. unfold pk, in_order in *. apply elem_of_list_omap in Hpk as (k & Hk & Ek).
    apply elem_of_list_omap. exists k. split; [by rewrite Hp|done]. }
  clear H2. induction (List.concat (map p_syntax (pk o2))) as [|f l' IH]; [cbn; by intros [= <-]|].
  cbn [res_fold]. unfold file_name at 1. destruct (fs_file fs (file_package_pos f)) as [n|] eqn:En; [|done]. cbn [res_bind].
  destruct (Hf f n) as [d ->]; [left|done|]. apply IH. intros f' n' Hf'. apply Hf. by right.
Qed.

(** C71: `scip-go missing` that ends with code 0 always prints the same: that nothing is missing, whatever the project. *)
Theorem C71_missing S f out : missing_cmd S f (out, Exit 0 None) → out = su_noise S O +:+ ("No missing documents" +:+ String "010" "").
Proof.
  intros Hr. inversion Hr as [| | | |o h all proj o1 o2 l Eo Hl Ho1 Ho2 El Eout]. subst out.
  assert (Hp : o1 ≡ₚ o2) by (by rewrite Ho1, Ho2). rewrite (list_missing_nil _ _ _ _ _ _ o1 o2 l Hp El). done.
Qed.
(** ... and it does not crash, if Go's guarantees hold and the options can be made without a crash. *)
Theorem C71_missing_no_crash S f out code e : go_works S f → (∀ m, make_options (su_machine S) f ≠ Panic m) →
  missing_cmd S f (out, Exit code e) → code = 0 ∧ e = None ∨ code = 1 ∧ is_Some e.
Proof.
  intros Hg Hno Hr. inversion Hr as [m Em|e' Ee|o h e' Eo Hl|o h all proj o1 o2 m Eo Hl Ho1 Ho2 El|o h all proj o1 o2 l Eo Hl Ho1 Ho2 El]; subst.
  - by destruct (Hno m).
  - right. eauto.
  - right. eauto.
  - exfalso. inversion Hl as [|h0 roots m' h' Ha Hp|h0 roots h' all' proj' Ha Hload]; subst.
    destruct (Hg o h0 roots h all proj Eo Ha Hload) as (P & <- & <- & <- & G).
    assert (HP : loaded_by S f o P) by (by exists h0, roots).
    pose proof (guarantees_indexable _ _ _ _ HP) as Hix.
    pose proof (C42_list_missing_empty (su_digest S) (pr_env P) (pr_objs P) (pr_fs P) (pr_heap P) (io_module_root (ro_index o)) (pr_all P) (pr_proj P) (pr_pkgs P) Hix o1 o2 Ho1 Ho2) as E.
    rewrite (gg_env _ _ _ _ _ G), (gg_fs _ _ _ _ _ G) in E. rewrite E in El. done.
  - by left.
Qed.
(** both commands never end with another code than 0, 1 and 2, and always end *)
Theorem C71_ends S f : (∀ o h0 roots, su_packages S o = inr (h0, roots) → load_input (su_builtin S) h0 roots) →
  (∃ r, packages_cmd S f r) ∧ (∃ r, missing_cmd S f r) ∧
  ∀ out code e, packages_cmd S f (out, Exit code e) → code = 0 ∧ e = None ∨ code = 1 ∧ is_Some e ∨ code = 2 ∧ make_options (su_machine S) f = Panic (default "" e).
Proof.
  intros Hin. destruct (make_options (su_machine S) f) as [[o|]|m] eqn:Eo.
  - destruct (loads_total (ro_index o) (su_world S) (su_builtin S) (su_packages S o) (Hin o)) as (h & ld & Hl). split; [|split].
    + destruct ld as [e|all proj]; eexists; [by eapply pc_failed|]. eapply pc_done; [exact Eo|exact Hl|reflexivity|reflexivity].
    + destruct ld as [e|all proj]; [eexists; by eapply mc_failed|].
      destruct (list_missing (su_digest S) (su_env S) (su_fs S) h (io_module_root (ro_index o)) proj (map fst (map_to_list proj)) (map fst (map_to_list proj))) as [l|m] eqn:El;
        eexists; [eapply mc_done|eapply mc_panic]; [exact Eo|exact Hl|reflexivity|reflexivity|exact El|exact Eo|exact Hl|reflexivity|reflexivity|exact El].
    + intros out code e Hr. inversion Hr; subst; try congruence; eauto.
  - split; [|split]; [eexists; by apply (pc_options _ _ "")|eexists; by apply (mc_options _ _ "")|]. intros out code e Hr. inversion Hr; subst; try congruence; eauto.
  - split; [|split]; [eexists; by eapply pc_crash|eexists; by eapply mc_crash|]. intros out code e Hr. inversion Hr; subst; try congruence; eauto.
    right. right. split; [done|]. cbn. congruence.
Qed.

(** *** C72: the memory profile *)
Definition same_links (u v : ftree) : Prop := ∀ p l, u !! p = Some (FLink l) ↔ v !! p = Some (FLink l).
Lemma follow_links n u v p : same_links u v → follow n u p = follow n v p.
Proof.
  intros H. revert p. induction n as [|n IH]; intros p; cbn [follow].
  - destruct (u !! p) as [[| | |l]|] eqn:E; destruct (v !! p) as [[| | |l']|] eqn:E'; try done;
      first [apply H in E; congruence|apply H in E'; congruence].
  - destruct (u !! p) as [[| | |l]|] eqn:E; destruct (v !! p) as [[| | |l']|] eqn:E'; try done;
      first [apply H in E; assert (l = l') as -> by congruence; apply IH|apply H in E; congruence|apply H in E'; congruence].
Qed.
Lemma links_insert (u : ftree) q x : (∀ l, u !! q ≠ Some (FLink l)) → (∀ l, x ≠ FLink l) → same_links (<[q := x]> u) u.
Proof.
  intros H1 H2 p l. destruct (decide (q = p)) as [<-|Hne]; [|by rewrite lookup_insert_ne].
  rewrite lookup_insert. split; [intros [= ->]; by destruct (H2 l)|intros E; by destruct (H1 l)].
Qed.
Lemma links_trans u v w : same_links u v → same_links v w → same_links u w.
Proof. intros H1 H2 p l. by rewrite (H1 p l). Qed.
Lemma links_append (u : ftree) q b : same_links (append_to u q b) u.
Proof.
  unfold append_to. destruct (u !! q) as [[]|] eqn:E; try done; apply links_insert; intros; congruence.
Qed.
Lemma resolve_not_link (u : ftree) p r : resolve u p = Some r → ∀ l, u !! r ≠ Some (FLink l).
Proof.
  unfold resolve. generalize 40. intros n. revert p. induction n as [|n IH]; intros p; cbn [follow].
  - destruct (u !! p) as [[]|] eqn:E; try done; intros [= <-] l; congruence.
  - destruct (u !! p) as [[]|] eqn:E; try (intros [= <-] l; congruence). apply IH.
Qed.

(** the tree t with the (regular, possibly new) file q emptied *)
Section Emptied.
  Context (t : ftree) (q : string) (Hq : t !! q = None ∨ ∃ c, t !! q = Some (FReg c)).
  Definition put (u : ftree) : ftree := <[q := FReg ""]> u.
  Lemma no_link : ∀ l, t !! q ≠ Some (FLink l).
  Proof. intros l E. destruct Hq as [H|[c H]]; congruence. Qed.
  Lemma links_put (u : ftree) : same_links u t → same_links (put u) u.
  Proof. intros Hu. apply links_insert; [|done]. intros l E. apply Hu in E. by destruct (no_link l). Qed.
  Lemma append_put (u : ftree) p b : p ≠ q → append_to (put u) p b = put (append_to u p b).
  Proof.
    intros Hne. unfold append_to. unfold put at 1. rewrite lookup_insert_ne by done.
    destruct (u !! p) as [[]|]; try done; unfold put; by rewrite insert_commute.
  Qed.
  Lemma index_cmd_put s no options run output : (output = "-" ∨ resolve t output ≠ Some q) →
    index_cmd s no options run output (put t) =
    (let '(t2, out, code) := index_cmd s no options run output t in (put t2, out, code)).
  Proof.
    intros Hout. unfold index_cmd. destruct options as [e|]; [done|].
    destruct (String.eqb_spec output "-") as [->|Hd].
    { destruct (run _) as [msgs [[e|]|e]]; done. }
    destruct Hout as [->|Hout]; [done|]. unfold os_create. destruct (sy_create s) as [e|]; [done|].
    assert (Er' : resolve (put t) output = resolve t output) by (apply follow_links, links_put; done). rewrite Er'. clear Er'.
    destruct (resolve t output) as [r|] eqn:Er; [|done]. pose proof (resolve_not_link _ _ _ Er) as Hrl.
    assert (Hne : r ≠ q) by (intros ->; done).
    assert (Hoq : output ≠ q).
    { intros ->. apply Hout. rewrite <- Er. apply resolve_plain. apply no_link. }
    unfold put at 1. rewrite lookup_insert_ne by done.
    assert (Hstep : ∀ u : ftree, same_links u t →
      (let '(msgs, o) := run (cli_writer (sy_write s)) in
       let t := append_to (put u) r (bytes_of_messages msgs) in
       let out := stdout_text no 0 (length msgs) in
       match o with
       | Returned None => (t, out, Exit 0 None)
       | Crashed e => (t, out, Exit 2 (Some e))
       | Returned (Some e) =>
           let t := append_to t r (sy_partial s) in
           ((if stat_regular (sy_stat s) t output then os_remove (sy_remove s) t output else t), out, Exit 1 (Some e))
       end) =
      (let '(t2, out, code) := (let '(msgs, o) := run (cli_writer (sy_write s)) in
       let t := append_to u r (bytes_of_messages msgs) in
       let out := stdout_text no 0 (length msgs) in
       match o with
       | Returned None => (t, out, Exit 0 None)
       | Crashed e => (t, out, Exit 2 (Some e))
       | Returned (Some e) =>
           let t := append_to t r (sy_partial s) in
           ((if stat_regular (sy_stat s) t output then os_remove (sy_remove s) t output else t), out, Exit 1 (Some e))
       end) in (put t2, out, code))).
    { intros u Hu. destruct (run (cli_writer (sy_write s))) as [msgs [[e|]|e]]; cbv zeta; rewrite !append_put by done; try done.
      set (u2 := append_to (append_to u r (bytes_of_messages msgs)) r (sy_partial s)).
      assert (Hu2 : same_links u2 t).
      { eapply links_trans; [apply links_append|]. eapply links_trans; [apply links_append|done]. }
      assert (stat_regular (sy_stat s) (put u2) output = stat_regular (sy_stat s) u2 output) as ->.
      { unfold stat_regular. destruct (sy_stat s); [done|].
        assert (resolve (put u2) output = Some r) as ->.
        { rewrite <- Er. apply follow_links. eapply links_trans; [by apply links_put|done]. }
        assert (resolve u2 output = Some r) as -> by (rewrite <- Er; by apply follow_links).
        unfold put. by rewrite lookup_insert_ne. }
      destruct (stat_regular (sy_stat s) u2 output); [|done]. f_equal. f_equal. unfold os_remove. destruct (sy_remove s); [done|].
      unfold put. by rewrite delete_insert_ne. }
    destruct (t !! r) as [[c| |c|l]|] eqn:Et; [| | |by destruct (Hrl l)|].
    - rewrite <- Hstep by (apply links_insert; [intros l; congruence|done]). unfold put. by rewrite insert_commute.
    - done.
    - rewrite <- Hstep by done. done.
    - rewrite <- Hstep by (apply links_insert; [intros l; congruence|done]). unfold put. by rewrite insert_commute.
  Qed.
End Emptied.

(** where the profile goes: a regular file, new or overwritten *)
Definition profile_file (t : ftree) (q : string) : Prop := regular_output t "mem.pprof" q.
(** C72: profiling, if the profile goes to a regular file other than the output, changes nothing but that file: for every
    run with --profile there is one without that ends with the same code, message, printed text and files, except the
    profile ... *)
Theorem C72_profile profile S f output (t : ftree) q bytes t' out code e : (0 < profile)%Z → profile_file t q →
  (output = "-" ∨ resolve t output ≠ Some q) →
  profiled profile None bytes (scip_go S f output) t (t', out, Exit code e) →
  ∃ t2, scip_go S f output t (t2, out, Exit code e) ∧ (∀ p, p ≠ q → t' !! p = t2 !! p) ∧
    (code ≠ 2 → t' !! q = Some (FReg bytes)).
Proof.
  intros Hp Hf Hout Hr. pose proof (create_regular _ _ _ Hf) as Hc. destruct Hf as (_ & Hres & Hreg).
  inversion Hr as [r Hle|e' Hlt He|q' t1 t2 out' code' e' written Hlt He Hrun Hw]; subst; [lia|congruence|].
  rewrite Hc in He. injection He as <- <-. change (<[q := FReg ""]> t) with (put q t) in Hrun.
  assert (X : ∃ u, scip_go S f output t (u, out, Exit code e) ∧ t2 = put q u).
  { destruct (scip_go_cases _ _ _ _ _ Hrun) as [(m & Em & E)|[(e1 & Ee & E)|(o & h & ld & Eo & Hl & E)]].
    - injection E as -> -> -> ->. exists t. split; [by apply sg_crash|done].
    - injection E as -> -> -> ->. exists t. split; [exact (sg_options S f output t e1 Ee)|done].
    - rewrite (index_cmd_put t q Hreg) in E by done. destruct (index_cmd _ _ _ _ output t) as [[u out1] code1] eqn:E1. injection E as <- <- ->.
      exists u. split; [|done]. rewrite <- E1. by eapply sg_index. }
  destruct X as (u & Hu & ->). exists u. split; [exact Hu|]. split.
  - intros p Hne. destruct written; [|unfold put; by rewrite lookup_insert_ne].
    unfold write_profile, put. rewrite lookup_insert. rewrite !lookup_insert_ne by done. done.
  - intros Hne. destruct written; [|by destruct Hne; apply Hw]. unfold write_profile, put. rewrite lookup_insert. rewrite lookup_insert.
    unfold write_at_start. cbn. destruct (slen bytes); by rewrite app_nil_r.
Qed.
(** ... and the other way round. *)
Theorem C72_profile_possible profile S f output (t : ftree) q bytes t2 out code e : (0 < profile)%Z → profile_file t q →
  (output = "-" ∨ resolve t output ≠ Some q) → scip_go S f output t (t2, out, Exit code e) →
  profiled profile None bytes (scip_go S f output) t (<[q := FReg bytes]> t2, out, Exit code e).
Proof.
  intros Hp Hf Hout Hrun. pose proof (create_regular _ _ _ Hf) as Hc. destruct Hf as (_ & Hres & Hreg).
  assert (X : scip_go S f output (put q t) (put q t2, out, Exit code e)).
  { destruct (scip_go_cases _ _ _ _ _ Hrun) as [(m & Em & E)|[(e1 & Ee & E)|(o & h & ld & Eo & Hl & E)]].
    - injection E as -> -> -> ->. by apply sg_crash.
    - injection E as -> -> -> ->. exact (sg_options S f output (put q t) e1 Ee).
    - pose proof (index_cmd_put t q Hreg (su_sys S) (su_noise S) None (program_run S o h ld) output Hout) as Ep. rewrite E in Ep. rewrite <- Ep. by eapply sg_index. }
  pose proof (pr_on profile None bytes (scip_go S f output) t q _ _ _ _ _ true Hp Hc X ltac:(done)) as Y.
  cbn [write_profile] in Y. unfold write_profile, put in Y. rewrite lookup_insert in Y. rewrite insert_insert in Y.
  unfold write_at_start in Y. cbn in Y. assert (bytes +:+ str_drop (slen bytes) "" = bytes) as Eb by (destruct (slen bytes); apply app_nil_r).
  by rewrite Eb in Y.
Qed.
(** Without --profile (or with a number that is not positive) nothing is done. *)
Theorem C72_no_profile profile err bytes cmd t r : (profile <= 0)%Z → profiled profile err bytes cmd t r ↔ cmd t r.
Proof. intros Hp. split; [intros Hr; inversion Hr; subst; [done|lia..]|]. by apply pr_off. Qed.
(** If the profile cannot be created, nothing is changed and the index is not made. *)
Theorem C72_profile_error profile err bytes cmd t e r : (0 < profile)%Z → os_create err t "mem.pprof" = inl e →
  profiled profile err bytes cmd t r → r.1.1 = t ∧ r.2 = Exit 1 (Some ("could not create memory profile: " +:+ e)).
Proof. intros Hp He Hr. inversion Hr; subst; [lia|split; cbn; congruence|congruence]. Qed.
(** If the output is the profile file, a run that succeeds (code 0) leaves a file that begins with the profile: the index
    is lost. *)
Theorem C72_same_file_refuted profile S f (t : ftree) q bytes t' out : (0 < profile)%Z → profile_file t q →
  profiled profile None bytes (scip_go S f "mem.pprof") t (t', out, Exit 0 None) →
  ∃ rest, t' !! q = Some (FReg (bytes +:+ rest)).
Proof.
  intros Hp Hf Hr. pose proof (create_regular _ _ _ Hf) as Hc. pose proof Hf as (_ & Hres & Hreg).
  inversion Hr as [r Hle|e' Hlt He|q' t1 t2 out' code' e' written Hlt He Hrun Hw]; subst; [lia|].
  rewrite Hc in He. injection He as <- <-.
  assert (Ho : regular_output (<[q := FReg ""]> t) "mem.pprof" q).
  { split; [done|]. split; [|right; exists ""; by rewrite lookup_insert]. rewrite <- Hres. apply follow_links, links_insert; [|done].
    intros l E. destruct Hreg as [H|[c H]]; congruence. }
  destruct (scip_go_cases _ _ _ _ _ Hrun) as [(m & Em & E)|[(e1 & Ee & E)|(o & h & ld & Eo & Hl & E)]]; [done|done|].
  destruct (exit_zero _ _ _ _ _ q _ Ho E eq_refl) as (_ & msgs & _ & Et). cbn [fst] in Et. subst t2.
  destruct written; [|specialize (Hw eq_refl); done]. unfold write_profile. rewrite lookup_insert. eexists. rewrite lookup_insert. reflexivity.
Qed.
