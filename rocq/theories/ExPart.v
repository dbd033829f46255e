(** C81: the project of ExIndex.v, packages ex.org/p (which declares F) and ex.org/r (whose r.go refers to p.F), and a run
    that indexes ex.org/r only, for which ex.org/p is a dependency known from export data. *)
From Coq Require Import Ascii String.
From stdpp Require Import prelude strings gmap sorting.
From Verif Require Import GoStr Scip GoTypes Packages Symbols Document Lookup Pass1 Pass2 Paths
  Loader Index Ast SpecSymbol SpecDecl SpecLookup SpecOcc SpecIndex
  P_Symbols P_Pass1 P_Link P_Lookup P_Pass2 P_Occ P_Scope P_Index PropDecl PropOcc PropIndex PropCross ExDecl ExOcc ExIndex ExCross PropNav PropPrecise ExPrecise PropUnique ExUnique
  PropSkip PropPart.
Open Scope string_scope.
Open Scope list_scope.

Definition pt_dep : gpkg := GPkg 1 "ex.org/p" "p" (Some p_mod) [("fmt", 2)] [] (Some q_tpkg) None.
(** F as export data describes it: at another position *)
Definition pt_F : obj := Obj 203 "F" (Some q_tpkg) 9035 (OFunc (Some None)) (TSig [] [] false) None.
Definition pt_objs (i : nat) : option obj := List.find (λ o, Nat.eqb (o_id o) i) [o_p; o_y; pt_F].
Definition pt_ti : tinfo := with_uses r_ti (tab [(411, o_p); (412, pt_F)]).
Definition pt_r : gpkg := GPkg 3 "ex.org/r" "r" (Some p_mod) [("ex.org/p", 1)] [r_file1; r_file2; r_file3] (Some r_tpkg) (Some pt_ti).
Definition pt_h : pheap := {[ 1 := pt_dep; 2 := fmt_pkg; 3 := pt_r ]}.
Definition pt_proj : ptab := {[ "ex.org/r" := 3 ]}.
Definition PT_ : project := Project p_env pt_objs x_fs pt_h x_all pt_proj [pt_r].

Lemma pt_typed f : f ∈ [r_file1; r_file2; r_file3] → typed_file x_fs pt_ti (imports_of pt_h pt_r) pt_objs f ∧ defs_at_idents pt_ti f.
Proof.
  intros Hf. split.
  - split; [| |intros o path H; by apply elem_of_nil in H].
    2:{ intros ptr o Hu Hk. apply tab_in in Hu. cbn in Hu. destruct Hu as [Hu|[Hu|[]]].
        - injection Hu as <- <-. by destruct (Hk "ex.org/p").
        - injection Hu as <- <-. split; [reflexivity|reflexivity|reflexivity|by split|done]. }
    split.
    + enum Hf; subst f; by eexists _, _, _, _, _.
    + intros decl m c Hd Hm Hc.
      assert (H : forallb (λ f, forallb (λ decl, forallb (λ m, forallb (λ c, match c with NFuncDecl _ _ _ _ _ _ _ | NFile _ _ _ _ _ => false | _ => true end)
        (node_children m)) (subnodes decl)) (file_decls f)) [r_file1; r_file2; r_file3] = true) by reflexivity.
      rewrite forallb_forall in H. specialize (H _ (proj1 (elem_of_list_In _ _) Hf)).
      rewrite forallb_forall in H. specialize (H _ (proj1 (elem_of_list_In _ _) Hd)).
      rewrite forallb_forall in H. specialize (H _ (proj1 (elem_of_list_In _ _) Hm)).
      rewrite forallb_forall in H. specialize (H _ (proj1 (elem_of_list_In _ _) Hc)). by destruct c.
    + intros decl Hd. enum Hf; subst f; enum Hd; by subst.
    + enum Hf; subst f; vm_compute; repeat (apply NoDup_cons; split; [intros H; enum H|]); constructor.
    + intros par i o path Hi Hu Hk.
      destruct (decide (id_ptr i = 411)) as [E|E].
      * right. enum Hf; subst f; enum Hi; injection Hi as <- <-; try discriminate. by eexists.
      * exfalso. apply tab_in in Hu. cbn in Hu.
        repeat (destruct Hu as [Hu|Hu]; [injection Hu as E' <-; try discriminate; congruence|]). done.
    + intros ptr o path [H|H] Hk; apply tab_in in H; cbn in H;
        repeat (destruct H as [H|H]; [injection H as _ <-; try discriminate; done|]); done.
    + intros i Hi. rewrite <- elem_of_node_idents in Hi. enum Hf; subst f; enum Hi; subst i; fits.
    + intros d p e r nm t b H. enum Hf; subst f; enum H.
    + intros ptr nm p l path imp Hin Himp.
      assert (imp = pt_dep) as ->. { unfold imports_of in Himp. cbn [p_imports pt_r List.find fst snd] in Himp. destruct (String.eqb _ _); [|done]. vm_compute in Himp. by injection Himp as <-. }
      enum Hf; subst f; enum Hin. injection Hin as <- <- <- <-. fits.
  - split.
    + intros i d Hi Hd. rewrite <- elem_of_node_idents in Hi. enum Hf; subst f; enum Hi; subst i; vm_compute in Hd; try discriminate; injection Hd as <-; reflexivity.
    + enum Hf; subst f; vm_compute; repeat (apply NoDup_cons; split; [intros H; enum H|]); constructor.
Qed.
Lemma pt_indexable : indexable pt_objs x_fs pt_h x_all pt_proj [pt_r].
Proof.
  split.
  - split; [|split].
    + intros k q H%x_in. enum H; injection H as <- <-; eexists _, _; by split_and!.
    + intros k q H%x_in. enum H; injection H as <- <-; eexists _, _; by split_and!.
    + intros k q p H%x_in Hh. enum H; injection H as <- <-; vm_compute in Hh; injection Hh as <-;
        eexists _, _; split; reflexivity || split; reflexivity.
  - split.
    + split; [|split].
      * intros k. cbn [map p_path pt_r]. split.
        -- intros ->%elem_of_list_singleton. by eexists.
        -- intros [q H%x_in]. enum H; injection H as <- <-; left.
      * apply NoDup_singleton.
      * cbn. repeat constructor.
    + intros p Hp. enum Hp; subst p; eexists; by split.
  - split.
    + intros p f Hp Hf. apply elem_of_list_singleton in Hp as ->. destruct (pt_typed f Hf) as [H1 H2].
      exists pt_ti. enum Hf; subst f; eexists; repeat (split; [done|]); reflexivity.
    + intros i j p f q f' name Hi Hj Hf Hf'.
      assert (NoDup (map (λ e : gpkg * node, x_name (file_package_pos e.2)) (files_in_order [pt_r]))) as Hnd.
      { vm_compute. repeat (apply NoDup_cons; split; [intros H; enum H|]). constructor. }
      eapply (NoDup_lookup _ i j (Some name) Hnd); rewrite list_lookup_fmap.
      * rewrite Hi. cbn. by f_equal.
      * rewrite Hj. cbn. by f_equal.
  - intros p f name i Hp Hf Hfn Hi. rewrite <- elem_of_node_idents in Hi.
    apply elem_of_list_singleton in Hp as ->. unfold file_of in Hfn.
    enum Hf; subst f; vm_compute in Hfn; injection Hfn as <-; enum Hi; subst i; reflexivity.
Qed.
Definition pt_run : list message * Index.outcome :=
  Index.index p_digest p_env x_fs pt_h (λ o, o_name o) x_mo (λ _ _, None) x_impl "" "/src" "v1.0.0" false x_meta
    (LoadOk x_all pt_proj) ["ex.org/r"] x_ao ["ex.org/r"].
Definition pt_msgs : list message := pt_run.1.
Lemma pt_success : pt_run = (pt_msgs, Returned None).
Proof. vm_compute. reflexivity. Qed.
Lemma pt_indexed : indexed_as p_digest (λ o, o_name o) "/src" PT_ pt_msgs.
Proof.
  eexists x_mo, "v1.0.0", x_impl, "", ["ex.org/r"], x_ao, ["ex.org/r"], false, x_meta, (λ _ _, None).
  split; [apply pt_indexable|]. split; [apply x_mo_ok|].
  split; [unfold key_order; vm_compute; repeat constructor|]. split; [apply x_ao_ok|].
  split; [unfold key_order; vm_compute; repeat constructor|]. split; [|exact pt_success].
  intros g g' k' exts _. unfold x_impl. intros [= <- <- <-]. split; [apply same_tables_refl|apply fresh_ok].
Qed.
Lemma pt_whole : indexed_as p_digest (λ o, o_name o) "/src" X x_msgs.
Proof.
  eexists x_mo, "v1.0.0", x_impl, "", x_po, x_ao, x_po, false, x_meta, (λ _ _, None).
  split; [apply x_indexable|]. split; [apply x_mo_ok|]. split; [apply x_po_ok|]. split; [apply x_ao_ok|].
  split; [apply x_po_ok|]. split; [apply x_impl_ok|exact x_success].
Qed.
Lemma pt_part : part_of PT_ X.
Proof.
  split; [done|done| |].
  - intros k q p Hk%x_in Hh. cbn in Hh. enum Hk; injection Hk as <- <-; vm_compute in Hh; injection Hh as <-; eexists _, _; by split_and!.
  - intros p ->%elem_of_list_singleton. exists x_r. split; [right; left|]. by split.
Qed.
Lemma pt_declaration : declaration X x_p q_file (mk 103 "F" 35) (KeyFunc "F").
Proof. apply C70_ex. Qed.
Lemma pt_uses n : agree (same_use PT_ X pt_r) (ti_uses pt_ti n) (ti_uses r_ti n).
Proof.
  unfold pt_ti, r_ti, with_uses, r_uses. cbn [ti_uses]. unfold tab. cbn [List.find fst].
  destruct (Nat.eqb 411 n); [|destruct (Nat.eqb 412 n); [|done]]; cbn.
  - eapply su_package; [done|]. vm_compute. by eexists.
  - eapply (su_declared PT_ X pt_r pt_F o_F (KeyFunc "F") x_p q_file (mk 103 "F" 35) pt_dep q_tpkg q_tpkg 1); [apply pt_declaration|reflexivity..|discriminate|reflexivity|reflexivity|reflexivity| | | |].
    + intros c Hc. enum Hc; subst c; vm_compute; reflexivity.
    + split; [done|]. exists q_tpkg. by split_and!.
    + intros x [-> | ->]; split_and!; done.
    + intros f' i' Hf' Hi'. rewrite <- elem_of_node_idents in Hi'. cbn in Hf'. enum Hf'; subst f'; enum Hi'; subst i'; done.
Qed.
Lemma pt_imports : same_imports PT_ X pt_r x_r.
Proof.
  intros path. unfold imports_of. cbn [p_imports pt_r x_r List.find fst snd]. destruct (String.eqb _ _); [|exact I].
  vm_compute. split; [done|]. by eexists.
Qed.

Example C81_example : ∃ d d', document_of [pt_r] (documents pt_msgs) pt_r r_file2 d ∧ document_of [x_p; x_r] (documents x_msgs) x_r r_file2 d' ∧
  d_path d' = d_path d ∧ Forall2 same_occurrence (d_occs d) (d_occs d') ∧ map unrelated (d_symbols d') ≡ₚ map unrelated (d_symbols d).
Proof.
  apply (C81_same_documents_partial p_digest (λ o, o_name o) "/src" PT_ X pt_msgs x_msgs pt_r x_r r_file2 pt_ti r_ti); try done.
  - exact pt_part.
  - exact pt_indexed.
  - exact pt_whole.
  - left.
  - right; left.
  - right; left.
  - exact pt_imports.
  - exact pt_uses.
Qed.
Example C81_definitions_example : ∃ d d', document_of [pt_r] (documents pt_msgs) pt_r r_file2 d ∧ document_of [x_p; x_r] (documents x_msgs) x_r r_file2 d' ∧
  d_path d' = d_path d ∧
  filter (λ o, oc_roles o = role_definition) (d_occs d') = filter (λ o, oc_roles o = role_definition) (d_occs d) ∧
  map unrelated (d_symbols d') ≡ₚ map unrelated (d_symbols d).
Proof.
  apply (C81_same_definitions p_digest (λ o, o_name o) "/src" PT_ X pt_msgs x_msgs pt_r x_r r_file2 pt_ti r_ti); try done.
  - exact pt_part.
  - exact pt_indexed.
  - exact pt_whole.
  - left.
  - right; left.
  - right; left.
  - exact pt_imports.
  - apply use_names with (p := pt_r), pt_uses.
Qed.
(** The marks are really not the same: F is documented as deprecated, which the run that indexes ex.org/p reads in its
    source; export data has no documentation, so the run that indexes ex.org/r only does not mark the reference. *)
Theorem C81_deprecated_refuted : ∃ o o', option_map d_occs (documents pt_msgs !! 1) ≫= last = Some o ∧ option_map d_occs (documents x_msgs !! 2) ≫= last = Some o' ∧
  oc_symbol o = "scip-go gomod ex.org v1.0.0 `ex.org/p`/F()." ∧ oc_symbol o' = oc_symbol o ∧ oc_range o' = oc_range o ∧ oc_roles o' = oc_roles o ∧
  oc_diags o = [] ∧ oc_diags o' = [DeprecatedDiag].
Proof. eexists _, _. split; [vm_compute; reflexivity|]. split; [vm_compute; reflexivity|]. by split_and!. Qed.
