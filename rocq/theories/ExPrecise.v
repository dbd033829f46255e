(** C67: examples, and the exception is real: in a package with a type E, the first E of
    [func F[S ~[]E, E any]] gets the symbol of the type E although it means the type parameter. *)
From Coq Require Import Ascii String.
From stdpp Require Import prelude strings gmap sorting.
From Verif Require Import GoStr Scip GoTypes Packages Symbols Document Lookup Pass1 Pass2 Paths
  Loader Index Ast SpecSymbol SpecDecl SpecLookup SpecOcc SpecIndex SpecPrecise
  P_Symbols P_Pass1 P_Link P_Lookup P_Pass2 P_Occ P_Scope P_Index P_Precise PropDecl PropOcc PropIndex PropCross ExDecl ExOcc ExIndex ExCross PropNav PropPrecise.
Open Scope string_scope.
Open Scope list_scope.

(** the two-package project of ExIndex *)
Definition X : project := Project p_env q_objs x_fs x_h x_all x_proj [x_p; x_r].
Lemma x_indexed : indexed X x_msgs.
Proof.
  eexists p_digest, (λ o, o_name o), x_mo, "/src", "v1.0.0", x_impl, "", x_po, x_ao, x_po, false, x_meta, (λ _ _, None).
  split; [apply x_indexable|]. split; [apply x_mo_ok|]. split; [apply x_po_ok|]. split; [apply x_ao_ok|].
  split; [apply x_po_ok|]. split; [apply x_impl_ok|exact x_success].
Qed.
Lemma x_clean : clean_modules X.
Proof.
  intros k q p m Hk%x_in Hh Hm. cbn in Hh. enum Hk; injection Hk as <- <-; vm_compute in Hh; injection Hh as <-; vm_compute in Hm; injection Hm as <-; by vm_compute.
Qed.
Lemma q_grammatical : grammatical q_file.
Proof.
  intros n Hn. enum Hn; subst n; cbn [node_grammar]; try exact I; try (intros d Hd; enum Hd; subst d; cbn; by auto).
Qed.
Lemma x_grammatical p : p ∈ [x_p; x_r] → pkg_grammatical p.
Proof.
  intros Hp f Hf. enum Hp; subst p.
  - enum Hf; subst f. split; [by eexists _, _, _, _, _|]. apply q_grammatical.
  - enum Hf; subst f; (split; [by eexists _, _, _, _, _|]); intros n Hn; enum Hn; subst n; cbn [node_grammar]; try exact I; try (intros d Hd; enum Hd; subst d; cbn; by auto).
Qed.
(** the reference to p.F in package r *)
Example C67_ex : ∃ d r, document_of [x_p; x_r] (documents x_msgs) x_r r_file2 d ∧ r ∈ d_occs d ∧
  oc_roles r = role_read_access ∧ oc_symbol r = key_symbol "ex.org/p" p_mod (KeyFunc "F") ∧ wf_pkg_pos x_p.
Proof.
  destruct (documents x_msgs !! 2) as [d|] eqn:Ed; [|vm_compute in Ed; discriminate].
  destruct (d_occs d !! 4) as [r|] eqn:Er; [|vm_compute in Ed; injection Ed as <-; vm_compute in Er; discriminate].
  exists d, r. split; [exists 2; split; [vm_compute; reflexivity|exact Ed]|]. split; [by eapply elem_of_list_lookup_2|].
  vm_compute in Ed. injection Ed as <-. vm_compute in Er. injection Er as <-. split; [reflexivity|]. split; [vm_compute; reflexivity|].
  apply wf_pkgb_ok. vm_compute. reflexivity.
Qed.

(** *** the exception: package p with a second file  [package p; type E int] *)
Definition z_type : node := NGenDecl 220 TYPE "" [NTypeSpec "" (mk 501 "E" 225) empty_fields (NIdent (mk 502 "int" 227))].
Definition z_file : node := NFile 202 false "" (mk 500 "p" 210) [z_type].
Definition z_tE : obj := Obj 601 "E" (Some q_tpkg) 225 OTypeName (TNamed (TName 601 (Some "ex.org/p") "E") []) None.
Definition z_ti : tinfo := TInfo
  (tab [(103, o_F); (104, o_S); (106, o_E); (108, o_s); (111, o_x); (102, o_fmt); (501, z_tE)])
  (tab [(105, o_E); (107, o_any); (109, o_S); (110, o_int); (112, o_fmt); (113, o_Println); (114, o_x); (115, o_x); (502, o_int)])
  (λ i, if Nat.eqb i 101 then Some o_fmt else None) [] (λ _, None) (λ _, "sig").
Definition z_p : gpkg := GPkg 1 "ex.org/p" "p" (Some p_mod) [("fmt", 2)] [q_file; z_file] (Some q_tpkg) (Some z_ti).
Definition z_h : pheap := {[ 1 := z_p; 2 := fmt_pkg ]}.
Definition Z_ : project := Project p_env q_objs x_fs z_h a_all a_proj [z_p].
Lemma z_imports path : imports_of z_h z_p path = q_imports path.
Proof.
  unfold imports_of, q_imports. cbn [p_imports z_p List.find fst].
  rewrite (String.eqb_sym path "fmt"). destruct (String.eqb "fmt" path); reflexivity.
Qed.
Lemma z_typed f : f ∈ [q_file; z_file] → typed_file x_fs z_ti (imports_of z_h z_p) q_objs f ∧ defs_at_idents z_ti f.
Proof.
  intros Hf. split.
  - split; [| |intros o path H; by apply elem_of_nil in H].
    2:{ intros ptr o Hu Hk. apply tab_in in Hu. cbn in Hu.
        repeat (destruct Hu as [Hu|Hu]; [injection Hu as _ <-;
          first [by destruct (Hk "fmt")
                |split; [reflexivity|reflexivity|reflexivity|first [by split|by constructor; [left|]]|done]]|]). done. }
    split.
    + enum Hf; subst f; by eexists _, _, _, _, _.
    + intros decl m c Hd Hm Hc.
      assert (H : forallb (λ f, forallb (λ decl, forallb (λ m, forallb (λ c, match c with NFuncDecl _ _ _ _ _ _ _ | NFile _ _ _ _ _ => false | _ => true end)
        (node_children m)) (subnodes decl)) (file_decls f)) [q_file; z_file] = true) by reflexivity.
      rewrite forallb_forall in H. specialize (H _ (proj1 (elem_of_list_In _ _) Hf)).
      rewrite forallb_forall in H. specialize (H _ (proj1 (elem_of_list_In _ _) Hd)).
      rewrite forallb_forall in H. specialize (H _ (proj1 (elem_of_list_In _ _) Hm)).
      rewrite forallb_forall in H. specialize (H _ (proj1 (elem_of_list_In _ _) Hc)). by destruct c.
    + intros decl Hd. enum Hf; subst f; enum Hd; by subst.
    + enum Hf; subst f; vm_compute; repeat (apply NoDup_cons; split; [intros H; enum H|]); constructor.
    + intros par i o path Hi Hu Hk.
      destruct (decide (id_ptr i = 112)) as [E|E].
      * right. enum Hf; subst f; enum Hi; injection Hi as <- <-; try discriminate. by eexists.
      * exfalso. apply tab_in in Hu. cbn in Hu.
        repeat (destruct Hu as [Hu|Hu]; [injection Hu as E' <-; try discriminate; congruence|]). done.
    + intros ptr o path [H|H] Hk; apply tab_in in H; cbn in H;
        repeat (destruct H as [H|H]; [injection H as _ <-; try discriminate; done|]); done.
    + intros i Hi. rewrite <- elem_of_node_idents in Hi. enum Hf; subst f; enum Hi; subst i; fits.
    + intros d p e r nm t b H. enum Hf; subst f; enum H. injection H as <- <- <- <- <- <- <-. fits.
    + intros ptr nm p l path imp Hin Himp. rewrite z_imports in Himp.
      assert (imp = fmt_pkg) as ->. { unfold q_imports in Himp. destruct (String.eqb _ _); congruence. }
      enum Hf; subst f; enum Hin. injection Hin as <- <- <- <-. fits.
  - split.
    + intros i d Hi Hd. rewrite <- elem_of_node_idents in Hi. enum Hf; subst f; enum Hi; subst i; vm_compute in Hd; try discriminate; injection Hd as <-; reflexivity.
    + enum Hf; subst f; vm_compute; repeat (apply NoDup_cons; split; [intros H; enum H|]); constructor.
Qed.
Lemma z_indexable : indexable q_objs x_fs z_h a_all a_proj [z_p].
Proof.
  split.
  - split; [|split].
    + intros k q H%x_in. enum H; injection H as <- <-; eexists _, _; by split_and!.
    + intros k q H%x_in. enum H; injection H as <- <-; eexists _, _; by split_and!.
    + intros k q p H%x_in Hh. enum H; injection H as <- <-; vm_compute in Hh; injection Hh as <-;
        eexists _, _; split; reflexivity || split; reflexivity.
  - split.
    + split; [|split].
      * intros k. cbn [map p_path z_p]. split.
        -- intros ->%elem_of_list_singleton. by eexists.
        -- intros [q H%x_in]. enum H; injection H as <- <-; left.
      * apply NoDup_singleton.
      * cbn. repeat constructor.
    + intros p Hp. enum Hp; subst p; eexists; by split.
  - split.
    + intros p f Hp Hf. apply elem_of_list_singleton in Hp as ->. destruct (z_typed f Hf) as [H1 H2].
      exists z_ti. enum Hf; subst f; eexists; repeat (split; [done|]); reflexivity.
    + intros i j p f q f' name Hi Hj Hf Hf'.
      assert (NoDup (map (λ e : gpkg * node, x_name (file_package_pos e.2)) (files_in_order [z_p]))) as Hnd.
      { vm_compute. repeat (apply NoDup_cons; split; [intros H; enum H|]). constructor. }
      eapply (NoDup_lookup _ i j (Some name) Hnd); rewrite list_lookup_fmap.
      * rewrite Hi. cbn. by f_equal.
      * rewrite Hj. cbn. by f_equal.
  - intros p f name i Hp Hf Hfn Hi. rewrite <- elem_of_node_idents in Hi.
    apply elem_of_list_singleton in Hp as ->. unfold file_of in Hfn.
    enum Hf; subst f; vm_compute in Hfn; injection Hfn as <-; enum Hi; subst i; reflexivity.
Qed.
Definition z_run : list message * Index.outcome :=
  Index.index p_digest p_env x_fs z_h (λ o, o_name o) x_mo (λ _ _, None) x_impl "" "/src" "v1.0.0" false x_meta
    (LoadOk a_all a_proj) ["ex.org/p"] ["fmt"; "ex.org/p"] ["ex.org/p"].
Definition z_msgs : list message := z_run.1.
Lemma z_success : z_run = (z_msgs, Returned None).
Proof. vm_compute. reflexivity. Qed.
Lemma z_indexed : indexed Z_ z_msgs.
Proof.
  eexists p_digest, (λ o, o_name o), x_mo, "/src", "v1.0.0", x_impl, "", ["ex.org/p"], ["fmt"; "ex.org/p"], ["ex.org/p"], false, x_meta, (λ _ _, None).
  split; [apply z_indexable|]. split; [apply x_mo_ok|].
  split; [unfold key_order; vm_compute; repeat constructor|]. split; [unfold key_order; vm_compute; repeat constructor|].
  split; [unfold key_order; vm_compute; repeat constructor|]. split; [|exact z_success].
  intros g g' k' exts _. unfold x_impl. intros [= <- <- <-]. split; [apply same_tables_refl|apply fresh_ok].
Qed.

(** C67 without its exception is false: the reference at the first E in [F[S ~[]E, E any]] has the symbol of the
    package-level type E, which is declared in the other file. *)
Theorem C67_type_parameter_refuted :
  ¬ (∀ P msgs p1 m1 k p2 f2 d r,
     indexed P msgs → p1 ∈ pr_pkgs P → p_module p1 = Some m1 → p2 ∈ pr_pkgs P → f2 ∈ p_syntax p2 →
     document_of (pr_pkgs P) (documents msgs) p2 f2 d → r ∈ d_occs d → oc_roles r = role_read_access →
     oc_symbol r = key_symbol (p_path p1) m1 k →
     ∃ ti par i o, p_info p2 = Some ti ∧ (par, NIdent i) ∈ file_nodes f2 ∧ ti_uses ti (id_ptr i) = Some o ∧
       oc_range r = ident_span (pr_fs P) i ∧ introduced_at p1 k (o_pos o)).
Proof.
  intros H.
  destruct (documents z_msgs !! 0) as [d|] eqn:Ed; [|vm_compute in Ed; discriminate].
  assert (Hr : Reference (key_symbol "ex.org/p" p_mod (KeyType "E")) [0; 41; 42]%Z false ∈ d_occs d).
  { vm_compute in Ed. injection Ed as <-. cbn [d_occs]. apply elem_of_list_In. vm_compute. tauto. }
  destruct (H Z_ z_msgs z_p p_mod (KeyType "E") z_p q_file d _ z_indexed (elem_of_list_here _ _) eq_refl (elem_of_list_here _ _)
    (elem_of_list_here _ _) (ex_intro _ 0 (conj eq_refl Ed)) Hr eq_refl eq_refl) as (ti & par & i & o & Hti & Hin & Hu & Hrange & Hint).
  injection Hti as <-. clear H Hr Ed.
  assert (id_ptr i = 105) as Ei. { enum Hin; injection Hin as <- <-; vm_compute in Hrange; first [discriminate|reflexivity]. }
  rewrite Ei in Hu. vm_compute in Hu. injection Hu as <-.
  destruct Hint as (j & Hj & Hpos). cbn in Hpos. destruct Hj as [(pr & f & Hf & p & hd & dd & nm & decls & decl & -> & Hdecl & Hd)|(f & p & doc & specs & sd & T & tps & t & _ & _ & _ & _ & E)]; [|discriminate E].
  apply elem_of_cons in Hf as [Hf|Hf%elem_of_list_singleton].
  - injection Hf as -> -> -> -> ->. enum Hdecl; subst decl; inversion Hd; subst; try discriminate.
  - injection Hf as -> -> -> -> ->. apply elem_of_list_singleton in Hdecl as ->. inversion Hd; subst.
    match goal with H : NTypeSpec _ _ _ _ ∈ _ |- _ => apply elem_of_list_singleton in H; injection H; intros; match goal with E : j = mk _ _ _ |- _ => rewrite E in Hpos end end.
    discriminate Hpos.
Qed.
Print Assumptions C67_type_parameter_refuted.
