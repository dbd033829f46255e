(** C82: the project of ExIndex.v, packages ex.org/p (which declares F) and ex.org/r (whose r.go refers to p.F), and the
    same project after an edit of the body of F:
    func F[S ~[]E, E any](s S) int { a := 1; b := a; f.Println(b); return b } *)
From Coq Require Import Ascii String.
From stdpp Require Import prelude strings gmap sorting.
From Verif Require Import GoStr Scip GoTypes Packages Symbols Document Lookup Pass1 Pass2 Paths
  Loader Index Ast SpecSymbol SpecDecl SpecLookup SpecOcc SpecIndex
  P_Symbols P_Pass1 P_Link P_Lookup P_Pass2 P_Occ P_Scope P_Index PropDecl PropOcc PropIndex PropCross ExDecl ExOcc ExIndex ExCross PropNav PropPrecise ExPrecise PropUnique ExUnique
  PropSkip PropPart ExPart PropEdit.
Open Scope string_scope.
Open Scope list_scope.

Definition ed_body : node := NBlockStmt 60
  [NOther 62 [NIdent (mk 121 "a" 62); NOther 67 []]; NOther 70 [NIdent (mk 122 "b" 70); NIdent (mk 123 "a" 75)];
   NOther 78 [NSelectorExpr (NIdent (mk 124 "f" 78)) (mk 125 "Println" 80); NIdent (mk 126 "b" 88)];
   NOther 92 [NIdent (mk 127 "b" 99)]].
Definition ed_F : node := NFuncDecl ("F docs." +:+ nl +:+ nl +:+ "Deprecated: use G.") 30 102 None (mk 103 "F" 35)
  (NFuncType 30 q_tps (NFieldList [NField "" "" [mk 108 "s" 52] (NIdent (mk 109 "S" 54))])
     (NFieldList [NField "" "" [] (NIdent (mk 110 "int" 57))])) (Some ed_body).
Definition ed_q : node := NFile 1 false "" (mk 100 "p" 9) [q_import; ed_F].
Definition ed_a : obj := Obj 221 "a" (Some q_tpkg) 62 (OVar false) (TBasic BInt false) None.
Definition ed_b : obj := Obj 222 "b" (Some q_tpkg) 70 (OVar false) (TBasic BInt false) None.
Definition ed_defs : nat → option obj := tab [(103, o_F); (104, o_S); (106, o_E); (108, o_s); (121, ed_a); (122, ed_b); (102, o_fmt)].
Definition ed_uses : nat → option obj := tab
  [(105, o_E); (107, o_any); (109, o_S); (110, o_int); (123, ed_a); (124, o_fmt); (125, o_Println); (126, ed_b); (127, ed_b)].
Definition ed_ti : tinfo := TInfo ed_defs ed_uses (λ i, if Nat.eqb i 101 then Some o_fmt else None) [] (λ _, None) (λ _, "sig").
Definition ed_objs (i : nat) : option obj :=
  List.find (λ o, Nat.eqb (o_id o) i) [o_F; o_S; o_E; o_s; ed_a; ed_b; o_any; o_int; o_fmt; o_Println].
Definition ed_p : gpkg := GPkg 1 "ex.org/p" "p" (Some p_mod) [("fmt", 2)] [ed_q] (Some q_tpkg) (Some ed_ti).
Definition ed_h : pheap := {[ 1 := ed_p; 2 := fmt_pkg; 3 := x_r ]}.
Definition ED_ : project := Project p_env ed_objs x_fs ed_h x_all x_proj [ed_p; x_r].

Lemma ed_imported path : imports_of ed_h ed_p path = q_imports path.
Proof.
  unfold imports_of, q_imports. cbn [p_imports ed_p List.find fst].
  rewrite (String.eqb_sym path "fmt"). destruct (String.eqb "fmt" path); reflexivity.
Qed.
Lemma ed_typed_p : typed_file x_fs ed_ti (imports_of ed_h ed_p) ed_objs ed_q.
Proof.
  split; [split| |intros o path H; by apply elem_of_nil in H].
  - by eexists _, _, _, _, _.
  - intros decl m c Hd Hm Hc.
    assert (H : forallb (λ decl, forallb (λ m, forallb (λ c, match c with NFuncDecl _ _ _ _ _ _ _ | NFile _ _ _ _ _ => false | _ => true end)
       (node_children m)) (subnodes decl)) (file_decls ed_q) = true) by reflexivity.
    rewrite forallb_forall in H. specialize (H _ (proj1 (elem_of_list_In _ _) Hd)).
    rewrite forallb_forall in H. specialize (H _ (proj1 (elem_of_list_In _ _) Hm)).
    rewrite forallb_forall in H. specialize (H _ (proj1 (elem_of_list_In _ _) Hc)). by destruct c.
  - intros decl Hd. enum Hd; by subst.
  - vm_compute. repeat (apply NoDup_cons; split; [intros H; enum H|]). constructor.
  - intros par i o path Hi Hu Hk.
    destruct (decide (id_ptr i = 124)) as [E|E].
    + right. enum Hi; injection Hi as <- <-; try discriminate. by eexists.
    + exfalso. apply tab_in in Hu. cbn in Hu.
      repeat (destruct Hu as [Hu|Hu]; [injection Hu as E' <-; try discriminate; congruence|]). done.
  - intros ptr o path [H|H] Hk; apply tab_in in H; cbn in H;
      repeat (destruct H as [H|H]; [injection H as _ <-; try discriminate; done|]); done.
  - intros i Hi. rewrite <- elem_of_node_idents in Hi. enum Hi; subst i; fits.
  - intros d p e r nm t b H. enum H. injection H as <- <- <- <- <- <- <-. fits.
  - intros ptr nm p l path imp Hin Himp. rewrite ed_imported in Himp.
    assert (imp = fmt_pkg) as ->. { unfold q_imports in Himp. destruct (String.eqb _ _); congruence. }
    enum Hin. injection Hin as <- <- <- <-. fits.
  - intros ptr o Hu Hk. apply tab_in in Hu. cbn in Hu.
    repeat (destruct Hu as [Hu|Hu]; [injection Hu as _ <-;
      first [by destruct (Hk "fmt")
            |split; [reflexivity|reflexivity|reflexivity|first [by split|by constructor; [left|]]|done]]|]). done.
Qed.
Lemma ed_defs_at : defs_at_idents ed_ti ed_q.
Proof.
  split.
  - intros i d Hi Hd. rewrite <- elem_of_node_idents in Hi. enum Hi; subst i; vm_compute in Hd; try discriminate; injection Hd as <-; reflexivity.
  - vm_compute. repeat (apply NoDup_cons; split; [intros H; enum H|]). constructor.
Qed.
Lemma ed_typed_r f : f ∈ [r_file1; r_file2; r_file3] → typed_file x_fs r_ti (imports_of ed_h x_r) ed_objs f ∧ defs_at_idents r_ti f.
Proof.
  intros Hf. destruct (x_typed_r f Hf) as [[H1 H2 H3] Hd]. split; [|done]. split; [| |exact H3].
  2:{ intros ptr o Hu Hk. apply tab_in in Hu. cbn in Hu. destruct Hu as [Hu|[Hu|[]]].
      - injection Hu as <- <-. by destruct (Hk "ex.org/p").
      - injection Hu as <- <-. split; [reflexivity|reflexivity|reflexivity|by split|done]. }
  destruct H1. split; try assumption.
  intros ptr nm p l path imp Hin Himp.
  assert (imp = ed_p) as ->. { unfold imports_of in Himp. cbn [p_imports x_r List.find fst snd] in Himp. destruct (String.eqb _ _); [|done]. vm_compute in Himp. by injection Himp as <-. }
  enum Hf; subst f; enum Hin. injection Hin as <- <- <- <-. fits.
Qed.
Lemma ed_indexable : indexable ed_objs x_fs ed_h x_all x_proj [ed_p; x_r].
Proof.
  split.
  - split; [|split].
    + intros k q H%x_in. enum H; injection H as <- <-; eexists _, _; by split_and!.
    + intros k q H%x_in. enum H; injection H as <- <-; eexists _, _; by split_and!.
    + intros k q p H%x_in Hh. enum H; injection H as <- <-; vm_compute in Hh; injection Hh as <-;
        eexists _, _; split; reflexivity || split; reflexivity.
  - split.
    + split; [|split].
      * intros k. cbn [map p_path ed_p x_r]. split.
        -- intros [->|[->|H%elem_of_nil]%elem_of_cons]%elem_of_cons; [| |done]; by eexists.
        -- intros [q H%x_in]. enum H; injection H as <- <-; [left|right; left].
      * cbn. apply NoDup_cons. split; [|apply NoDup_singleton]. intros H. enum H.
      * cbn. repeat constructor.
    + intros p Hp. enum Hp; subst p; eexists; by split.
  - split.
    + intros p f Hp Hf. apply elem_of_cons in Hp as [->|Hp].
      * apply elem_of_list_singleton in Hf as ->. exists ed_ti, "/src/p.go".
        split; [done|]. split; [apply ed_typed_p|]. split; [apply ed_defs_at|done].
      * apply elem_of_list_singleton in Hp as ->. destruct (ed_typed_r f Hf) as [H1 H2].
        exists r_ti. enum Hf; subst f; eexists; repeat (split; [done|]); reflexivity.
    + intros i j p f q f' name Hi Hj Hf Hf'.
      assert (NoDup (map (λ e : gpkg * node, x_name (file_package_pos e.2)) (files_in_order [ed_p; x_r]))) as Hnd.
      { vm_compute. repeat (apply NoDup_cons; split; [intros H; enum H|]). constructor. }
      eapply (NoDup_lookup _ i j (Some name) Hnd); rewrite list_lookup_fmap.
      * rewrite Hi. cbn. by f_equal.
      * rewrite Hj. cbn. by f_equal.
  - intros p f name i Hp Hf Hfn Hi. rewrite <- elem_of_node_idents in Hi.
    apply elem_of_cons in Hp as [->|Hp].
    + apply elem_of_list_singleton in Hf as ->. unfold file_of in Hfn. vm_compute in Hfn. injection Hfn as <-.
      enum Hi; subst i; reflexivity.
    + apply elem_of_list_singleton in Hp as ->. unfold file_of in Hfn.
      enum Hf; subst f; vm_compute in Hfn; injection Hfn as <-; enum Hi; subst i; reflexivity.
Qed.
Definition ed_run : list message * Index.outcome :=
  Index.index p_digest p_env x_fs ed_h (λ o, o_name o) x_mo (λ _ _, None) x_impl "" "/src" "v1.0.0" false x_meta
    (LoadOk x_all x_proj) x_po x_ao x_po.
Definition ed_msgs : list message := ed_run.1.
Lemma ed_success : ed_run = (ed_msgs, Returned None).
Proof. vm_compute. reflexivity. Qed.
Lemma ed_indexed : indexed_as p_digest (λ o, o_name o) "/src" ED_ ed_msgs.
Proof.
  eexists x_mo, "v1.0.0", x_impl, "", x_po, x_ao, x_po, false, x_meta, (λ _ _, None).
  split; [apply ed_indexable|]. split; [apply x_mo_ok|]. split; [apply x_po_ok|]. split; [apply x_ao_ok|].
  split; [apply x_po_ok|]. split; [|exact ed_success].
  intros g g' k' exts _. unfold x_impl. intros [= <- <- <-]. split; [apply same_tables_refl|apply fresh_ok].
Qed.

Lemma ed_same_r f : f ∈ p_syntax x_r → same_declarations x_fs x_fs r_ti r_ti f.
Proof. done. Qed.
Lemma ed_edited : edited X ED_.
Proof.
  split; [done..|]. intros q. cbn [pr_heap X ED_]. unfold x_h, ed_h.
  destruct (decide (q = 1)) as [->|H1]; [|destruct (decide (q = 2)) as [->|H2]; [|destruct (decide (q = 3)) as [->|H3]]].
  - change (edited_package x_fs x_fs x_p ed_p). split; [done..| ].
    intros f ->%elem_of_list_singleton. split; [| | |done|done].
    + intros i Hi. rewrite <- elem_of_node_idents in Hi. enum Hi; subst i; reflexivity.
    + done.
    + done.
  - change (edited_package x_fs x_fs fmt_pkg fmt_pkg). by split.
  - change (edited_package x_fs x_fs x_r x_r). split; [done..|]. intros f _. done.
  - rewrite !lookup_insert_ne, !lookup_singleton_ne by done. exact I.
Qed.
Lemma ed_untouched : untouched x_fs x_fs r_ti r_ti r_file2.
Proof. done. Qed.

Example C82_example : ∃ d d', document_of [x_p; x_r] (documents x_msgs) x_r r_file2 d ∧ document_of [ed_p; x_r] (documents ed_msgs) x_r r_file2 d' ∧
  d_path d' = d_path d ∧ d_occs d' = d_occs d ∧ map unrelated (d_symbols d') ≡ₚ map unrelated (d_symbols d).
Proof.
  apply (C82_other_documents p_digest (λ o, o_name o) "/src" X ED_ x_msgs ed_msgs x_r x_r r_file2 r_ti r_ti); try done.
  - exact ed_edited.
  - exact pt_whole.
  - exact ed_indexed.
  - right; left.
  - right; left.
  - right; left.
  - right; left.
Qed.
Example C82_edited_example : ∃ d d', document_of [x_p; x_r] (documents x_msgs) x_p q_file d ∧ document_of [ed_p; x_r] (documents ed_msgs) ed_p ed_q d' ∧
  d_path d' = d_path d ∧
  map unrelated (filter (λ i, ¬ is_local (i_symbol i)) (d_symbols d')) ≡ₚ map unrelated (filter (λ i, ¬ is_local (i_symbol i)) (d_symbols d)).
Proof.
  apply (C82_edited_document p_digest (λ o, o_name o) "/src" X ED_ x_msgs ed_msgs x_p ed_p q_file ed_q q_ti ed_ti); try done.
  - exact ed_edited.
  - exact pt_whole.
  - exact ed_indexed.
  - left.
  - left.
  - left.
  - left.
Qed.
(** The edited file's own document did change: it has two locals more than before, not one, and other references. *)
Example C82_edit_matters : map (λ d, (d_path d, length (d_occs d), length (d_symbols d))) (documents x_msgs) =
    [("p.go", 14, 6); ("r/r_test.go", 1, 1); ("r/r.go", 5, 1); ("r/doc.go", 1, 0)] ∧
  map (λ d, (d_path d, length (d_occs d), length (d_symbols d))) (documents ed_msgs) =
    [("p.go", 16, 7); ("r/r_test.go", 1, 1); ("r/r.go", 5, 1); ("r/doc.go", 1, 0)].
Proof. split; vm_compute; reflexivity. Qed.
