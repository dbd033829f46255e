(** C57, type switches: go/types records the variable of each clause of a type switch in a map, and
    which of the objects at one position is taken depends on its iteration order.  The document of the
    file does not. *)
From Coq Require Import Ascii String.
From stdpp Require Import prelude strings gmap sorting.
From Verif Require Import GoStr Scip GoTypes Packages Symbols Document Lookup Pass1 Pass2 Paths
  Loader Index Ast SpecSymbol SpecDecl SpecLookup SpecOcc SpecIndex
  P_Symbols P_Pass1 P_Link P_Lookup P_Pass2 P_Occ P_Index PropOcc PropIndex PropDet ExDecl ExOcc.
Open Scope string_scope.
Open Scope list_scope.

(** the same facts, the implicit objects in another order *)
Record reordered (ti ti' : tinfo) : Prop := Reordered {
  re_defs : ti_defs ti = ti_defs ti'; re_uses : ti_uses ti = ti_uses ti';
  re_pkgname : ti_pkgname_of ti = ti_pkgname_of ti';
  re_case : ti_case_objs ti ≡ₚ ti_case_objs ti' }.
(** implicit objects are variables; those of one switch (at one position) have the same name *)
Definition clause_variables (ti : tinfo) : Prop :=
  (∀ c, c ∈ ti_case_objs ti → o_kind c = OVar false) ∧
  ∀ c c', c ∈ ti_case_objs ti → c' ∈ ti_case_objs ti → o_pos c = o_pos c' → o_name c = o_name c'.

Section Switch.
Context (ti ti' : tinfo) (R : reordered ti ti') (CV : clause_variables ti).
Context (g : global) (fs : fset) (pkg : gpkg) (tbl : ptable) (imports : string → option gpkg) (lookup : obj → lookup_result).

(** the same object, or two clause variables of one switch *)
Definition twin (o o' : obj) : Prop :=
  o = o' ∨ (o ∈ ti_case_objs ti ∧ o' ∈ ti_case_objs ti ∧ o_pos o = o_pos o').
Definition twins (a b : Z * obj) : Prop := fst a = fst b ∧ twin (snd a) (snd b).

Lemma find_none_iff (l : list obj) p : List.find (λ o, Z.eqb (o_pos o) p) l = None ↔ ∀ o, o ∈ l → o_pos o ≠ p.
Proof.
  split.
  - intros H o Ho E. apply elem_of_list_In in Ho. pose proof (find_none _ _ H _ Ho) as H'. cbn in H'. by apply Z.eqb_neq in H'.
  - intros H. destruct (List.find _ l) as [o|] eqn:E; [|done]. apply find_some in E as [E1 E2]. apply Z.eqb_eq in E2.
    apply elem_of_list_In in E1. by destruct (H o).
Qed.
Lemma find_perm p : match List.find (λ o, Z.eqb (o_pos o) p) (ti_case_objs ti), List.find (λ o, Z.eqb (o_pos o) p) (ti_case_objs ti') with
  | Some o, Some o' => twin o o' ∧ o_pos o = p | None, None => True | _, _ => False end.
Proof.
  pose proof (re_case _ _ R) as Hp.
  destruct (List.find _ (ti_case_objs ti)) as [o|] eqn:E, (List.find _ (ti_case_objs ti')) as [o'|] eqn:E'.
  - apply find_some in E as [E1 E2], E' as [E1' E2']. apply Z.eqb_eq in E2, E2'. apply elem_of_list_In in E1, E1'. rewrite <- Hp in E1'.
    split; [right; split; [done|split; [done|congruence]]|done].
  - apply find_some in E as [E1 E2]. apply Z.eqb_eq in E2. apply elem_of_list_In in E1. rewrite Hp in E1.
    by destruct (proj1 (find_none_iff _ _) E' o E1).
  - apply find_some in E' as [E1 E2]. apply Z.eqb_eq in E2. apply elem_of_list_In in E1. rewrite <- Hp in E1.
    by destruct (proj1 (find_none_iff _ _) E o' E1).
  - done.
Qed.
Lemma hidden_re par : hidden g ti par = hidden g ti' par.
Proof. unfold hidden, names_package. by rewrite (re_uses _ _ R). Qed.
Lemma plain_re e : plain_ident g ti e = plain_ident g ti' e.
Proof. unfold plain_ident. destruct e as [par n]. destruct n; try done. rewrite hidden_re. unfold names_package. by rewrite (re_uses _ _ R). Qed.
Lemma local_def_re e : option_Forall2 twins (local_def g pkg ti tbl e) (local_def g pkg ti' tbl e).
Proof.
  unfold local_def. rewrite plain_re. destruct (plain_ident g ti' e) as [i|]; [|constructor].
  pose proof (find_perm (id_pos i)) as H. unfold switch_object.
  destruct (List.find _ (ti_case_objs ti)) as [o|], (List.find _ (ti_case_objs ti')) as [o'|]; try done.
  - destruct H as [H Hp]. constructor. split; cbn; [|done]. destruct H as [->|(_ & _ & H)]; [done|congruence].
  - rewrite (re_defs _ _ R). destruct (ti_defs ti' (id_ptr i)) as [d|]; [|constructor].
    destruct (registered _ _ _ _); constructor. split; [done|]. by left.
Qed.
Lemma index_of_twins l l' p : Forall2 twins l l' → index_of p l = index_of p l'.
Proof. induction 1 as [|[a o] [b o'] l l' [E _] _ IH]; [done|]. cbn in E. subst b. cbn. by rewrite IH. Qed.
Lemma option_list_twins e : Forall2 twins (option_list (local_def g pkg ti tbl e)) (option_list (local_def g pkg ti' tbl e)).
Proof. destruct (local_def_re e) as [x y H|]; [by apply Forall2_cons_2; [|constructor]|constructor]. Qed.
Lemma node_occs_re before before' e : Forall2 twins before before' →
  node_occs g fs pkg ti tbl imports lookup before e = node_occs g fs pkg ti' tbl imports lookup before' e.
Proof.
  intros H. destruct e as [par n]. destruct n; try done.
  2:{ cbn. unfold import_refs. by rewrite (re_pkgname _ _ R). }
  cbn [node_occs]. rewrite <- hidden_re. destruct (hidden g ti par); [done|].
  unfold names_package. rewrite <- (re_uses _ _ R). destruct (ti_uses ti (id_ptr i)) as [u|] eqn:Eu; [destruct (o_kind u) eqn:Ek|]; try done.
  all: destruct (String.eqb _ _); [done|].
  all: pose proof (find_perm (id_pos i)) as Hf; unfold switch_object.
  all: destruct (List.find _ (ti_case_objs ti)) as [o|], (List.find _ (ti_case_objs ti')) as [o'|]; try done.
  all: try (by rewrite (Forall2_length _ _ _ H)).
  all: f_equal; [unfold def_occs; rewrite (re_defs _ _ R); by rewrite (Forall2_length _ _ _ H)|].
  all: unfold use_occs; rewrite <- (re_uses _ _ R), Eu; try reflexivity; unfold local_symbol.
  all: rewrite (index_of_twins _ (before' ++ option_list (local_def g pkg ti' tbl (par, NIdent i)))); [done|].
  all: apply Forall2_app; [done|apply option_list_twins].
Qed.
Lemma nodes_occs_re l before before' : Forall2 twins before before' →
  nodes_occs g fs pkg ti tbl imports lookup before l = nodes_occs g fs pkg ti' tbl imports lookup before' l.
Proof.
  revert before before'. induction l as [|e l IH]; intros before before' H; [done|]. cbn. f_equal.
  - by apply node_occs_re.
  - apply IH, Forall2_app; [done|apply option_list_twins].
Qed.
Lemma local_defs_re f : Forall2 twins (local_defs g pkg ti tbl f) (local_defs g pkg ti' tbl f).
Proof.
  unfold local_defs. induction (file_nodes f) as [|e l IH]; [constructor|]. unfold omap. cbn.
  destruct (local_def_re e); [by constructor|done].
Qed.
End Switch.

(** C57: the document of a file, for two orders of the implicit objects *)
Theorem C57_type_switches : ∀ env objs root version g fs pkg ti ti' tbl imports po f st st' objstr relative name torder torder' lorder lorder',
  reordered ti ti' → clause_variables ti → typed_file fs ti imports objs f →
  visited env objs root version g fs pkg ti tbl imports po f st → visited env objs root version g fs pkg ti' tbl imports po f st' →
  torder ≡ₚ map_to_list tbl → torder' ≡ₚ map_to_list tbl → lorder ≡ₚ map_to_list (f_locals st) → lorder' ≡ₚ map_to_list (f_locals st') →
  same_document (to_document env fs ti objstr relative name torder lorder st) (to_document env fs ti' objstr relative name torder' lorder' st').
Proof.
  intros env objs root version g fs pkg ti ti' tbl imports po f st st' objstr relative name torder torder' lorder lorder' R CV Htf Hv Hv' Ht Ht' Hl Hl'.
  assert (Htf' : typed_file fs ti' imports objs f).
  { destruct Htf as [W U C], R as [R1 R2 R3 R4]. destruct W. split.
    - split; try assumption.
      + intros par i o path Hi Hu. rewrite <- R2 in Hu. eauto.
      + intros ptr o path. rewrite <- R1, <- R2. eauto.
    - intros ptr o Hu. rewrite <- R2 in Hu. eauto.
    - intros o path Ho. rewrite <- R4 in Ho. eauto. }
  destruct (visited_occs env objs root version g fs pkg ti tbl imports _ f _ Htf (lk_answers env objs root version g fs ti imports f Htf) st Hv) as (N & O & I).
  destruct (visited_occs env objs root version g fs pkg ti' tbl imports _ f _ Htf' (lk_answers env objs root version g fs ti' imports f Htf') st' Hv') as (N' & O' & I').
  split; [done|]. split.
  - cbn. rewrite O, O'. f_equal. apply nodes_occs_re; [done..|constructor].
  - cbn [to_document d_symbols]. apply Permutation_app.
    + apply Permutation_map. unfold symbols_for_file. apply filter_Permutation. by rewrite Ht, Ht'.
    + rewrite Hl, Hl'.
      assert (E : (local_info env ti objstr <$> f_locals st) = (local_info env ti' objstr <$> f_locals st')).
      { apply map_eq. intros p. rewrite !lookup_fmap, (iv_locals _ _ _ _ _ _ _ I), (iv_locals _ _ _ _ _ _ _ I').
        pose proof (local_defs_re ti ti' R g pkg tbl f) as HT. rewrite (index_of_twins ti _ _ p HT).
        destruct (index_of p (local_defs g pkg ti' tbl f)) as [k|]; [|done]. cbn.
        pose proof (proj1 (Forall2_lookup _ _ _) HT k) as Hk. unfold local_defs in *.
        inversion Hk as [[q o] [q' o'] [_ Htw] E1 E2|E1 E2]; cbn in *; [|done]. f_equal.
        unfold local_info. cbn [l_obj l_symbol].
        assert (Ec : ∀ q, is_Some (case_at ti q) ↔ is_Some (case_at ti' q)).
        { intros q0. unfold case_at. pose proof (find_perm ti ti' R q0) as Hf.
          destruct (List.find _ (ti_case_objs ti)), (List.find _ (ti_case_objs ti')); try done; split; eauto. }
        destruct Htw as [<-|(H1 & H2 & H3)].
        - f_equal. specialize (Ec (o_pos o)). destruct (case_at ti (o_pos o)), (case_at ti' (o_pos o)); try done; destruct Ec as [Ea Eb];
            [destruct Ea as [? ?]; [by eexists|done]|destruct Eb as [? ?]; [by eexists|done]].
        - destruct CV as [CK CN]. rewrite (CN _ _ H1 H2 H3). f_equal.
          + unfold kind_for_object. by rewrite (CK _ H1), (CK _ H2).
          + rewrite <- H3. assert (is_Some (case_at ti (o_pos o))) as Hs.
            { unfold case_at. destruct (List.find _ _) eqn:E0; [by eexists|]. by destruct (proj1 (find_none_iff _ _) E0 o H1). }
            apply Ec in Hs as Hs'. destruct Hs as [? ->], Hs' as [? ->]. done. }
      assert (F : ∀ t L, map (λ l : Z * local, local_info env t objstr l.2) (map_to_list L) ≡ₚ map snd (map_to_list (local_info env t objstr <$> L))).
      { intros t L. rewrite (Permutation_map snd (map_to_list_fmap (local_info env t objstr) L)), map_map. by erewrite map_ext; [reflexivity|intros []]. }
      rewrite !F. by rewrite E.
Qed.
Print Assumptions C57_type_switches.
