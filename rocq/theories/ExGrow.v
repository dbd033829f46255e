(** C84: the project of ExIndex.v, packages ex.org/p (which declares F) and ex.org/r (files r_test.go, r.go, which refers to
    p.F, and doc.go), and two projects from which it grows: ex.org/p alone, and both packages when r.go is the only file of
    ex.org/r. *)
From Coq Require Import Ascii String.
From stdpp Require Import prelude strings gmap sorting.
From Verif Require Import GoStr Scip GoTypes Packages Symbols Document Lookup Pass1 Pass2 Paths
  Loader Index Ast SpecSymbol SpecDecl SpecLookup SpecOcc SpecIndex
  P_Symbols P_Pass1 P_Link P_Lookup P_Pass2 P_Occ P_Scope P_Index PropDecl PropOcc PropIndex PropCross ExDecl ExOcc ExIndex ExCross PropNav PropPrecise ExPrecise PropUnique ExUnique
  PropSkip PropPart ExPart PropEdit PropGrow.
Open Scope string_scope.
Open Scope list_scope.

(** *** both packages, ex.org/r with r.go only *)
Definition gr_r : gpkg := GPkg 3 "ex.org/r" "r" (Some p_mod) [("ex.org/p", 1)] [r_file2] (Some r_tpkg) (Some r_ti).
Definition gr_h : pheap := {[ 1 := x_p; 2 := fmt_pkg; 3 := gr_r ]}.
Definition GR_ : project := Project p_env q_objs x_fs gr_h x_all x_proj [x_p; gr_r].

Lemma gr_typed_p : typed_file x_fs q_ti (imports_of gr_h x_p) q_objs q_file.
Proof.
  destruct x_typed_p as [H1 H2 H3]. split; [|exact H2|exact H3]. destruct H1. split; try assumption.
  intros ptr nm p l path imp Hin Himp. apply (wff_fit_import ptr nm p l path imp Hin). unfold imports_of in Himp |- *. cbn [p_imports x_p List.find fst snd] in Himp |- *.
  destruct (String.eqb _ _); [|done]. vm_compute in Himp. injection Himp as <-. vm_compute. reflexivity.
Qed.
Lemma gr_typed_r : typed_file x_fs r_ti (imports_of gr_h gr_r) q_objs r_file2 ∧ defs_at_idents r_ti r_file2.
Proof.
  destruct (x_typed_r r_file2) as [[H1 H2 H3] Hd]; [right; left|]. split; [|done]. split; [|exact H2|exact H3]. destruct H1. split; try assumption.
  intros ptr nm p l path imp Hin Himp. apply (wff_fit_import ptr nm p l path imp Hin). unfold imports_of in Himp |- *. cbn [p_imports gr_r x_r List.find fst snd] in Himp |- *.
  destruct (String.eqb _ _); [|done]. vm_compute in Himp. injection Himp as <-. vm_compute. reflexivity.
Qed.
Lemma gr_indexable : indexable q_objs x_fs gr_h x_all x_proj [x_p; gr_r].
Proof.
  split.
  - split; [|split].
    + intros k q H%x_in. enum H; injection H as <- <-; eexists _, _; by split_and!.
    + intros k q H%x_in. enum H; injection H as <- <-; eexists _, _; by split_and!.
    + intros k q p H%x_in Hh. enum H; injection H as <- <-; vm_compute in Hh; injection Hh as <-;
        eexists _, _; split; reflexivity || split; reflexivity.
  - split.
    + split; [|split].
      * intros k. cbn [map p_path x_p gr_r]. split.
        -- intros [->|[->|H%elem_of_nil]%elem_of_cons]%elem_of_cons; [| |done]; by eexists.
        -- intros [q H%x_in]. enum H; injection H as <- <-; [left|right; left].
      * cbn. apply NoDup_cons. split; [|apply NoDup_singleton]. intros H. enum H.
      * cbn. repeat constructor.
    + intros p Hp. enum Hp; subst p; eexists; by split.
  - split.
    + intros p f Hp Hf. apply elem_of_cons in Hp as [->|Hp].
      * apply elem_of_list_singleton in Hf as ->. exists q_ti, "/src/p.go".
        split; [done|]. split; [exact gr_typed_p|]. split; [apply q_defs_at|done].
      * apply elem_of_list_singleton in Hp as ->. apply elem_of_list_singleton in Hf as ->. destruct gr_typed_r as [H1 H2].
        exists r_ti, "/src/r/r.go". split; [done|]. split; [exact H1|]. split; [exact H2|done].
    + intros i j p f q f' name Hi Hj Hf Hf'.
      assert (NoDup (map (λ e : gpkg * node, x_name (file_package_pos e.2)) (files_in_order [x_p; gr_r]))) as Hnd.
      { vm_compute. repeat (apply NoDup_cons; split; [intros H; enum H|]). constructor. }
      eapply (NoDup_lookup _ i j (Some name) Hnd); rewrite list_lookup_fmap.
      * rewrite Hi. cbn. by f_equal.
      * rewrite Hj. cbn. by f_equal.
  - intros p f name i Hp Hf Hfn Hi. rewrite <- elem_of_node_idents in Hi.
    apply elem_of_cons in Hp as [->|Hp].
    + apply elem_of_list_singleton in Hf as ->. unfold file_of in Hfn. vm_compute in Hfn. injection Hfn as <-.
      enum Hi; subst i; reflexivity.
    + apply elem_of_list_singleton in Hp as ->. apply elem_of_list_singleton in Hf as ->. unfold file_of in Hfn. vm_compute in Hfn. injection Hfn as <-.
      enum Hi; subst i; reflexivity.
Qed.
Definition gr_run : list message * Index.outcome :=
  Index.index p_digest p_env x_fs gr_h (λ o, o_name o) x_mo (λ _ _, None) x_impl "" "/src" "v1.0.0" false x_meta
    (LoadOk x_all x_proj) x_po x_ao x_po.
Definition gr_msgs : list message := gr_run.1.
Lemma gr_success : gr_run = (gr_msgs, Returned None).
Proof. vm_compute. reflexivity. Qed.
Lemma gr_indexed : indexed_as p_digest (λ o, o_name o) "/src" GR_ gr_msgs.
Proof.
  eexists x_mo, "v1.0.0", x_impl, "", x_po, x_ao, x_po, false, x_meta, (λ _ _, None).
  split; [apply gr_indexable|]. split; [apply x_mo_ok|]. split; [apply x_po_ok|]. split; [apply x_ao_ok|].
  split; [apply x_po_ok|]. split; [|exact gr_success].
  intros g g' k' exts _. unfold x_impl. intros [= <- <- <-]. split; [apply same_tables_refl|apply fresh_ok].
Qed.

(** *** ex.org/p alone *)
Definition gq_h : pheap := {[ 1 := x_p; 2 := fmt_pkg ]}.
Definition GQ_ : project := Project p_env q_objs x_fs gq_h a_all a_proj [x_p].
Lemma gq_imports path : imports_of gq_h x_p path = q_imports path.
Proof.
  unfold imports_of, q_imports. cbn [p_imports x_p List.find fst].
  rewrite (String.eqb_sym path "fmt"). destruct (String.eqb "fmt" path); reflexivity.
Qed.
Lemma gq_typed : typed_file x_fs q_ti (imports_of gq_h x_p) q_objs q_file.
Proof.
  destruct x_typed_p as [H1 H2 H3]. split; [|exact H2|exact H3]. destruct H1. split; try assumption.
  intros ptr nm p l path imp Hin Himp. rewrite gq_imports, <- x_imports in Himp. eauto.
Qed.
Lemma gq_indexable : indexable q_objs x_fs gq_h a_all a_proj [x_p].
Proof.
  split.
  - split; [|split].
    + intros k q H%x_in. enum H; injection H as <- <-; eexists _, _; by split_and!.
    + intros k q H%x_in. enum H; injection H as <- <-; eexists _, _; by split_and!.
    + intros k q p H%x_in Hh. enum H; injection H as <- <-; vm_compute in Hh; injection Hh as <-;
        eexists _, _; split; reflexivity || split; reflexivity.
  - split.
    + split; [|split].
      * intros k. cbn [map p_path x_p]. split.
        -- intros ->%elem_of_list_singleton. by eexists.
        -- intros [q H%x_in]. enum H; injection H as <- <-; left.
      * apply NoDup_singleton.
      * cbn. repeat constructor.
    + intros p Hp. enum Hp; subst p; eexists; by split.
  - split.
    + intros p f Hp Hf. apply elem_of_list_singleton in Hp as ->. apply elem_of_list_singleton in Hf as ->.
      exists q_ti, "/src/p.go". split; [done|]. split; [exact gq_typed|]. split; [apply q_defs_at|done].
    + intros i j p f q f' name Hi Hj Hf Hf'. destruct i as [|i]; [|by destruct i]. destruct j as [|j]; [done|by destruct j].
  - intros p f name i Hp Hf Hfn Hi. rewrite <- elem_of_node_idents in Hi.
    apply elem_of_list_singleton in Hp as ->. apply elem_of_list_singleton in Hf as ->. unfold file_of in Hfn. vm_compute in Hfn. injection Hfn as <-.
    enum Hi; subst i; reflexivity.
Qed.
Definition gq_run : list message * Index.outcome :=
  Index.index p_digest p_env x_fs gq_h (λ o, o_name o) x_mo (λ _ _, None) x_impl "" "/src" "v1.0.0" false x_meta
    (LoadOk a_all a_proj) ["ex.org/p"] ["fmt"; "ex.org/p"] ["ex.org/p"].
Definition gq_msgs : list message := gq_run.1.
Lemma gq_success : gq_run = (gq_msgs, Returned None).
Proof. vm_compute. reflexivity. Qed.
Lemma gq_indexed : indexed_as p_digest (λ o, o_name o) "/src" GQ_ gq_msgs.
Proof.
  eexists x_mo, "v1.0.0", x_impl, "", ["ex.org/p"], ["fmt"; "ex.org/p"], ["ex.org/p"], false, x_meta, (λ _ _, None).
  split; [apply gq_indexable|]. split; [apply x_mo_ok|].
  split; [unfold key_order; vm_compute; repeat constructor|]. split; [unfold key_order; vm_compute; repeat constructor|].
  split; [unfold key_order; vm_compute; repeat constructor|]. split; [|exact gq_success].
  intros g g' k' exts _. unfold x_impl. intros [= <- <- <-]. split; [apply same_tables_refl|apply fresh_ok].
Qed.

(** *** the hypotheses *)
Definition laid_out_file (f : node) : bool :=
  forallb (λ m, match x_name (node_pos m), x_name (file_package_pos f) with
    | Some a, Some b => String.eqb a b && negb (Z.eqb (node_pos m) (id_pos (file_ident f))) | _, _ => false end)
    (List.concat (map subnodes (file_decls f))).
Lemma laid_out_of P : pr_fs P = x_fs → (∀ p f, p ∈ pr_pkgs P → f ∈ p_syntax p → f ∈ [q_file; r_file1; r_file2; r_file3]) → laid_out P.
Proof.
  intros Efs Hall p f name z Hp Hf N (d & m & Hd & Hm & <- & _). rewrite Efs in *.
  assert (H : forallb laid_out_file [q_file; r_file1; r_file2; r_file3] = true) by (vm_compute; reflexivity).
  rewrite forallb_forall in H. specialize (H f (proj1 (elem_of_list_In _ _) (Hall p f Hp Hf))). unfold laid_out_file in H. rewrite forallb_forall in H.
  assert (Hin : In m (List.concat (map subnodes (file_decls f)))). { apply elem_of_list_In, elem_of_concat_map. by exists d. }
  specialize (H m Hin). unfold file_of in N. cbn [fs_file x_fs] in N |- *. rewrite N in H. destruct (x_name (node_pos m)) as [a|]; [|done].
  apply andb_true_iff in H as [H1 H2]. apply String.eqb_eq in H1 as ->. split; [done|]. intros E. by rewrite E, Z.eqb_refl in H2.
Qed.
Lemma x_laid_out : laid_out X.
Proof. apply laid_out_of; [done|]. intros p f Hp Hf. cbn in Hp. enum Hp; subst p; enum Hf; subst f; rewrite elem_of_list_In; cbn; tauto. Qed.
Lemma gr_laid_out : laid_out GR_.
Proof. apply laid_out_of; [done|]. intros p f Hp Hf. cbn in Hp. enum Hp; subst p; enum Hf; subst f; rewrite elem_of_list_In; cbn; tauto. Qed.
Lemma gq_laid_out : laid_out GQ_.
Proof. apply laid_out_of; [done|]. intros p f Hp Hf. cbn in Hp. enum Hp; subst p; enum Hf; subst f; rewrite elem_of_list_In; cbn; tauto. Qed.
Lemma gr_grown : grown GR_ X.
Proof.
  split; [done| |].
  - intros k q p Hk%x_in Hh. enum Hk; injection Hk as <- <-; vm_compute in Hh; injection Hh as <-; eexists _, _; by split_and!.
  - intros p Hp. cbn in Hp. enum Hp; subst p.
    + exists x_p. split; [left|]. split_and!; try done. intros ti ti' f [= <-] [= <-] _. done.
    + exists x_r. split; [right; left|]. split_and!; try done; [intros f ->%elem_of_list_singleton; right; left|]. intros ti ti' f [= <-] [= <-] _. done.
Qed.
Lemma gq_grown : grown GQ_ X.
Proof.
  split; [done| |].
  - intros k q p Hk%x_in Hh. enum Hk; injection Hk as <- <-; vm_compute in Hh; injection Hh as <-; eexists _, _; by split_and!.
  - intros p Hp. cbn in Hp. enum Hp; subst p.
    exists x_p. split; [left|]. split_and!; try done. intros ti ti' f [= <-] [= <-] _. done.
Qed.
(** the positions in p.go and r.go, except those of the package clauses *)
Lemma gr_not_added z name : x_name z = Some name → name ∈ ["/src/p.go"; "/src/r/r.go"] → z ≠ 9%Z → z ≠ 310%Z → not_added GR_ X z.
Proof.
  intros E Hn H1 H2 p' f' name' Hp' Hf' N' Hz. cbn [fs_file pr_fs X x_fs] in Hz. rewrite E in Hz. injection Hz as <-. cbn in Hp'. unfold file_of in N'.
  enum Hp'; subst p'; enum Hf'; subst f'; vm_compute in N'; injection N' as <-; enum Hn.
  - split; [|done]. exists x_p. split; [left|]. split; [done|left].
  - split; [|done]. exists gr_r. split; [right; left|]. split; [done|left].
Qed.
Lemma gr_refers_back : refers_back GR_ X gr_r x_r r_ti r_file2.
Proof.
  split.
  - reflexivity.
  - intros i o Hi Hu Hk. rewrite <- elem_of_node_idents in Hi. enum Hi; subst i; vm_compute in Hu; try discriminate; injection Hu as <-.
    + by destruct (Hk "ex.org/p").
    + split; [by eapply gr_not_added; [reflexivity|left|..]|]. intros tp [= <-] _. by eexists.
  - intros i o path Hi Hu Hk. rewrite <- elem_of_node_idents in Hi. enum Hi; subst i; vm_compute in Hu; try discriminate; injection Hu as <-; [|done].
    injection Hk as <-. intros _. by eexists.
  - intros r nm pp s o path Hi Ho Hk. enum Hi. injection Hi as <- <- <- <-. vm_compute in Ho. injection Ho as <-. injection Hk as <-.
    vm_compute. split; [done|]. intros _. by eexists.
Qed.
(** r.go keeps its document when r_test.go and doc.go are added, although the documentation of the package is recorded for
    r.go before, and for r_test.go after *)
Example C84_example : ∃ d d', document_of [x_p; gr_r] (documents gr_msgs) gr_r r_file2 d ∧ document_of [x_p; x_r] (documents x_msgs) x_r r_file2 d' ∧
  d_path d' = d_path d ∧ d_occs d' = d_occs d ∧
  map unrelated (filter (λ i, i_symbol i ≠ package_symbol p_mod "ex.org/r") (d_symbols d')) ≡ₚ
  map unrelated (filter (λ i, i_symbol i ≠ package_symbol p_mod "ex.org/r") (d_symbols d)).
Proof.
  apply (C84_other_documents p_digest (λ o, o_name o) "/src" GR_ X gr_msgs x_msgs gr_r x_r r_file2 p_mod r_ti r_ti); try done.
  - exact gr_grown.
  - exact gr_laid_out.
  - exact x_laid_out.
  - exact gr_indexed.
  - exact pt_whole.
  - right; left.
  - right; left.
  - left.
  - exact gr_refers_back.
Qed.
Lemma gq_not_added z : x_name z = Some "/src/p.go" ∨ x_name z = None → z ≠ 9%Z → not_added GQ_ X z.
Proof.
  intros [E|E] H1 p' f' name' Hp' Hf' N' Hz; cbn [fs_file pr_fs X x_fs] in Hz; rewrite E in Hz; [|done]. injection Hz as <-. cbn in Hp'. unfold file_of in N'.
  enum Hp'; subst p'; enum Hf'; subst f'; vm_compute in N'; try discriminate.
  split; [|done]. exists x_p. split; [left|]. split; [done|left].
Qed.
Lemma gq_refers_back : refers_back GQ_ X x_p x_p q_ti q_file.
Proof.
  split.
  - reflexivity.
  - intros i o Hi Hu Hk. rewrite <- elem_of_node_idents in Hi. enum Hi; subst i; vm_compute in Hu; try discriminate; injection Hu as <-;
      try (by destruct (Hk "fmt")); (split; [apply gq_not_added; [first [left; reflexivity|right; reflexivity]|discriminate]|]); intros tp Htp; vm_compute in Htp; try discriminate; injection Htp as <-; intros _; by eexists.
  - intros i o path Hi Hu Hk. rewrite <- elem_of_node_idents in Hi. enum Hi; subst i; vm_compute in Hu; try discriminate; injection Hu as <-; try done.
    injection Hk as <-. intros _. by eexists.
  - intros r nm pp s o path Hi Ho Hk. enum Hi. injection Hi as <- <- <- <-. vm_compute in Ho. injection Ho as <-. injection Hk as <-.
    vm_compute. split; [done|]. intros _. by eexists.
Qed.
(** p.go keeps its document when the package ex.org/r is added *)
Example C84_package_example : ∃ d d', document_of [x_p] (documents gq_msgs) x_p q_file d ∧ document_of [x_p; x_r] (documents x_msgs) x_p q_file d' ∧
  d_path d' = d_path d ∧ d_occs d' = d_occs d ∧
  map unrelated (filter (λ i, i_symbol i ≠ package_symbol p_mod "ex.org/p") (d_symbols d')) ≡ₚ
  map unrelated (filter (λ i, i_symbol i ≠ package_symbol p_mod "ex.org/p") (d_symbols d)).
Proof.
  apply (C84_other_documents p_digest (λ o, o_name o) "/src" GQ_ X gq_msgs x_msgs x_p x_p q_file p_mod q_ti q_ti); try done.
  - exact gq_grown.
  - exact gq_laid_out.
  - exact x_laid_out.
  - exact gq_indexed.
  - exact pt_whole.
  - left.
  - left.
  - left.
  - exact gq_refers_back.
Qed.
(** The information about the package is left out for a reason: r.go's document has it before, and not after. *)
Example C84_package_moves :
  map (λ d, (d_path d, length (d_occs d), length (d_symbols d))) (documents gr_msgs) = [("p.go", 14, 6); ("r/r.go", 5, 2)] ∧
  map (λ d, (d_path d, length (d_occs d), length (d_symbols d))) (documents x_msgs) =
    [("p.go", 14, 6); ("r/r_test.go", 1, 1); ("r/r.go", 5, 1); ("r/doc.go", 1, 0)].
Proof. split; vm_compute; reflexivity. Qed.
