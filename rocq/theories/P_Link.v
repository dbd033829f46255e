(** Proofs linking the first pass with the composer; uniqueness of symbols; the
    package table. *)
From Coq Require Import Ascii String.
From stdpp Require Import prelude strings gmap.
From Verif Require Import GoStr Scip GoTypes Ast Packages Symbols Document Lookup Pass1
  SpecSymbol SpecDecl P_Symbols P_Pass1 P_Doc.
Open Scope string_scope.
Open Scope list_scope.

Lemma locate_owner_unique env sc fid T :
  (∃ e, e ∈ sc ∧ direct_field_of env e fid) →
  (∀ e, e ∈ sc → direct_field_of env e fid → se_name e = T) →
  locate_owner env sc fid = Some T.
Proof.
  intros Hex Hu. unfold locate_owner.
  destruct (List.find (owns_field env fid) sc) as [e|] eqn:Hf; cbn.
  - apply List.find_some in Hf as [Hin Ho]. f_equal. apply Hu; [by apply elem_of_list_In|].
    by apply owns_field_spec.
  - apply locate_owner_spec in Hex. unfold locate_owner in Hex. by rewrite Hf in Hex.
Qed.

Lemma describe_key env path k o tp :
  object_of_key env path k o → o_pkg o = Some tp →
  describe env tp o = key_descriptors path k ∧ nameable env o ∧ origin o = o.
Proof.
  intros (Ho & tp' & Hp & Hpath & Hk) Hp'. assert (tp' = tp) as -> by congruence.
  assert (origin o = o) as Horig.
  { unfold origin. rewrite Ho. by destruct (o_kind o). }
  unfold describe, nameable, key_descriptors. rewrite Hpath.
  destruct k as [n|n|r n|n|T n].
  - destruct Hk as [-> ->]. done.
  - destruct Hk as [-> ->]. done.
  - destruct Hk as (rt & tn & -> & -> & Hb & Hn & Hr).
    rewrite (name_type_of_base _ _ Hb), Hn. destruct (String.eqb_spec r ""); [done|].
    split; [done|]. split; [|done]. exists tn. by rewrite Hn.
  - destruct Hk as [[-> | ->] ->]; done.
  - destruct Hk as (-> & -> & Hex & Hu). rewrite (locate_owner_unique env _ _ T Hex Hu).
    split; [done|]. split; [|done]. destruct Hex as (e & He & Hd). by exists tp, e.
Qed.

Lemma compose_key env dp dv dep m path k o :
  p_module dep = Some m → object_of_key env path k o →
  (compose env (new_composer dp dv) (Some dep) (Some o)).1 = key_symbol path m k.
Proof.
  intros Hm Hk. destruct (Hk) as (_ & tp & Hp & _ & _).
  destruct (describe_key env path k o tp Hk Hp) as (Hd & Hn & Ho).
  rewrite (compose_some env _ _ o tp); rewrite ?Ho; try done.
  unfold key_symbol. rewrite Hd. unfold pack. by rewrite Hm.
Qed.

Lemma key_symbol_ext path m m' k :
  m_path m = m_path m' → m_version m = m_version m' → key_symbol path m k = key_symbol path m' k.
Proof. unfold key_symbol. by intros -> ->. Qed.

Lemma key_descriptors_inj path k1 k2 : key_descriptors path k1 = key_descriptors path k2 → k1 = k2.
Proof. unfold key_descriptors. destruct k1, k2; intros [=]; congruence. Qed.

Definition clean_module (m : gmodule) : Prop :=
  no_leading_space (m_path m) = true ∧ no_leading_space (m_version m) = true.
Lemma clean_module_symbol m ds :
  clean_module m → clean_symbol (Sym "scip-go" (SPkg "gomod" (m_path m) (m_version m)) ds) = true.
Proof. intros [H1 H2]. unfold clean_symbol. cbn. by rewrite H1, H2. Qed.

Lemma key_symbol_inj path m k1 k2 :
  clean_module m → key_symbol path m k1 = key_symbol path m k2 → k1 = k2.
Proof.
  intros Hc H. eapply key_descriptors_inj, format_symbol_inj_descs; [|exact H].
  by apply clean_module_symbol.
Qed.

(** a method's object composes to T#M(). *)
Lemma compose_method env dp dv dep m o tp rt tn :
  p_module dep = Some m → o_origin o = None → o_pkg o = Some tp →
  o_kind o = OFunc (Some (Some rt)) → base_named rt tn → tn_name tn ≠ "" →
  (compose env (new_composer dp dv) (Some dep) (Some o)).1 =
  format_symbol (Sym "scip-go" (SPkg "gomod" (m_path m) (m_version m))
    [Desc (tp_path tp) Namespace; Desc (tn_name tn) Type_; Desc (o_name o) Method]).
Proof.
  intros Hm Ho Hp Hk Hb Hn.
  assert (origin o = o) as Horig by (unfold origin; by rewrite Ho, Hk).
  rewrite (compose_some env _ _ o tp); rewrite ?Horig; try done.
  - unfold describe, pack. rewrite Hk, Hm, (name_type_of_base _ _ Hb).
    by destruct (String.eqb_spec (tn_name tn) "").
  - unfold nameable. rewrite Hk. by exists tn.
Qed.
(** a field's object composes to the first owner *)
Lemma compose_field env dp dv dep m o tp owner :
  p_module dep = Some m → o_origin o = None → o_pkg o = Some tp →
  o_kind o = OVar true → locate_owner env (tp_scope tp) (o_id o) = Some owner →
  (compose env (new_composer dp dv) (Some dep) (Some o)).1 =
  format_symbol (Sym "scip-go" (SPkg "gomod" (m_path m) (m_version m))
    [Desc (tp_path tp) Namespace; Desc owner Type_; Desc (o_name o) Term]).
Proof.
  intros Hm Ho Hp Hk Hl.
  assert (origin o = o) as Horig by (unfold origin; by rewrite Ho, Hk).
  rewrite (compose_some env _ _ o tp); rewrite ?Horig; try done.
  - unfold describe, pack. by rewrite Hk, Hm, Hl.
  - unfold nameable. rewrite Hk.
    assert (locate_owner env (tp_scope tp) (o_id o) ≠ None) as Hne by (by rewrite Hl).
    apply locate_owner_spec in Hne as (e & He & Hd). by exists tp, e.
Qed.

(** *** C16: partition *)
Section Partition.
  Context (fs : fset).
  Notation sff := (symbols_for_file fs).
  Lemma sff_perm f o1 o2 : o1 ≡ₚ o2 → sff f o1 ≡ₚ sff f o2.
  Proof. intros H. unfold symbols_for_file. by rewrite H. Qed.

  Lemma partition files order :
    NoDup files → (∀ e, e ∈ order → ∃ f, f ∈ files ∧ fs_file fs e.1 = Some f) →
    List.concat (map (λ f, sff f order) files) ≡ₚ order.
  Proof.
    revert order. induction files as [|f files IH]; intros order Hnd Hcov; cbn.
    - destruct order as [|e order]; [done|].
      destruct (Hcov e) as (f & Hf & _); [left|]. by apply elem_of_nil in Hf.
    - apply NoDup_cons in Hnd as [Hf Hnd].
      set (rest := filter (λ e, fs_file fs e.1 ≠ Some f) order).
      assert (Heq : map (λ g, sff g order) files = map (λ g, sff g rest) files).
      { apply map_ext_in. intros g Hg%elem_of_list_In. unfold symbols_for_file, rest.
        rewrite list_filter_filter_l; [done|]. intros [p i] Hi Hc. cbn in *. congruence. }
      rewrite Heq. rewrite IH; [|done|].
      + unfold symbols_for_file, rest. clear.
        induction order as [|e order IH]; [done|].
        rewrite !filter_cons. destruct (decide (fs_file fs e.1 = Some f)), (decide (fs_file fs e.1 ≠ Some f));
          try done.
        * cbn. by rewrite IH.
        * rewrite <- Permutation_middle. by rewrite IH.
      + intros e He. unfold rest in He. apply elem_of_list_filter in He as [Hne He].
        destruct (Hcov e He) as (g & [->|Hg]%elem_of_cons & Hg'); [done|]. eauto.
  Qed.
End Partition.

(** *** C22 *)
Lemma pset_lookup t p x :
  pset t p x !! p = match t !! p with
                    | Some y => if String.eqb (i_symbol y) (i_symbol x) then Some y else Some x
                    | None => Some x end.
Proof.
  unfold pset. destruct (t !! p) as [y|] eqn:E.
  - destruct (String.eqb _ _); [done|apply lookup_insert].
  - apply lookup_insert.
Qed.

Definition register (l : list (Z * syminfo)) : ptable := foldl (λ t r, pset t r.1 r.2) ∅ l.
Definition none_at (p : Z) (l : list (Z * syminfo)) : Prop := ∀ r, r ∈ l → r.1 ≠ p.
(** [x] was registered at [p], changed the symbol there, and every later
    registration at [p] repeated [x]'s symbol *)
Definition last_change (p : Z) (l : list (Z * syminfo)) (x : syminfo) : Prop :=
  ∃ l1 l2, l = l1 ++ (p, x) :: l2 ∧
    (∀ r, r ∈ l2 → r.1 = p → i_symbol r.2 = i_symbol x) ∧
    (none_at p l1 ∨ ∃ a y b, l1 = a ++ (p, y) :: b ∧ none_at p b ∧ i_symbol y ≠ i_symbol x).

Lemma register_snoc l r : register (l ++ [r]) = pset (register l) r.1 r.2.
Proof. unfold register. by rewrite foldl_app. Qed.

Lemma register_none p l : register l !! p = None ↔ none_at p l.
Proof.
  induction l as [|r l IH] using rev_ind.
  - unfold register, none_at. cbn. split; [|intros; apply lookup_empty].
    intros _ r Hr. by apply elem_of_nil in Hr.
  - rewrite register_snoc. destruct (decide (r.1 = p)) as [E|E].
    + split.
      * intros H. rewrite <- E, pset_lookup in H. destruct (register l !! r.1); [|done].
        by destruct (String.eqb _ _).
      * intros H. exfalso. apply (H r); [|done]. apply elem_of_app. right. by apply elem_of_list_singleton.
    + rewrite pset_other by done. rewrite IH. unfold none_at. split.
      * intros H r' [Hr|Hr]%elem_of_app; [by apply H|]. by apply elem_of_list_singleton in Hr as ->.
      * intros H r' Hr. apply H, elem_of_app. by left.
Qed.

Lemma register_last_change p l x : register l !! p = Some x ↔ last_change p l x.
Proof.
  revert x. induction l as [|r l IH] using rev_ind; intros x.
  - split.
    + unfold register. cbn. by rewrite lookup_empty.
    + intros (l1 & l2 & H & _). by destruct l1.
  - rewrite register_snoc. destruct r as [q z]. cbn [fst snd].
    destruct (decide (q = p)) as [->|E].
    + rewrite pset_lookup. split.
      * case_eq (register l !! p); [intros y Hl|intros Hl].
        -- destruct (String.eqb_spec (i_symbol y) (i_symbol z)) as [Es|Es]; intros [= <-].
           ++ apply IH in Hl as (l1 & l2 & -> & H2 & H1). exists l1, (l2 ++ [(p, z)]).
              split; [by rewrite <- List.app_assoc|]. split; [|done].
              intros r [Hr|Hr]%elem_of_app; [by apply H2|]. apply elem_of_list_singleton in Hr as ->.
              by intros _.
           ++ exists l, []. split; [done|]. split; [by intros r ?%elem_of_nil|].
              right. apply IH in Hl as (l1 & l2 & -> & H2 & H1).
              (* the last registration at p in l1 ++ (p,y) :: l2 has y's symbol *)
              assert (∀ l2, (∀ r, r ∈ l2 → r.1 = p → i_symbol r.2 = i_symbol y) →
                ∃ a y' b, l1 ++ (p, y) :: l2 = a ++ (p, y') :: b ∧ none_at p b ∧ i_symbol y' = i_symbol y) as HH.
              { clear. intros l2. induction l2 as [|[q' w] l2 IH2] using rev_ind; intros H2.
                - exists l1, y, []. split; [done|]. split; [by intros r ?%elem_of_nil|done].
                - destruct (decide (q' = p)) as [->|E].
                  + exists (l1 ++ (p, y) :: l2), w, []. split; [by rewrite <- List.app_assoc|].
                    split; [by intros r ?%elem_of_nil|].
                    apply (H2 (p, w)); [|done]. apply elem_of_app. right. by apply elem_of_list_singleton.
                  + destruct IH2 as (a & y' & b & Heq & Hb & Hy).
                    { intros r Hr. apply H2, elem_of_app. by left. }
                    exists a, y', (b ++ [(q', w)]). split; [|split; [|done]].
                    * rewrite List.app_comm_cons, !List.app_assoc, Heq. by rewrite <- List.app_assoc.
                    * intros r [Hr|Hr]%elem_of_app; [by apply Hb|]. by apply elem_of_list_singleton in Hr as ->. }
              destruct (HH l2 H2) as (a & y' & b & -> & Hb & Hy).
              exists a, y', b. split; [done|]. split; [done|]. congruence.
        -- intros [= <-]. exists l, []. split; [done|]. split; [by intros r ?%elem_of_nil|].
           left. by apply register_none.
      * intros (l1 & l2 & Heq & H2 & H1). destruct l2 as [|r2 l2 _] using rev_ind.
        -- apply app_inj_tail in Heq as [-> [= ->]]. destruct H1 as [H1|(a & y & b & -> & Hb & Hy)].
           ++ apply register_none in H1. by rewrite H1.
           ++ assert (∃ y', register (a ++ (p, y) :: b) !! p = Some y' ∧ i_symbol y' = i_symbol y)
                as (y' & -> & Hy').
              { clear -Hb. induction b as [|rb b IHb] using rev_ind.
                - rewrite register_snoc, pset_lookup. cbn. destruct (register a !! p) as [w|]; [|by eauto].
                  destruct (String.eqb_spec (i_symbol w) (i_symbol y)); eauto.
                - rewrite List.app_comm_cons, List.app_assoc, register_snoc, pset_other.
                  + apply IHb. intros r Hr. apply Hb, elem_of_app. by left.
                  + apply Hb, elem_of_app. right. by apply elem_of_list_singleton. }
              destruct (String.eqb_spec (i_symbol y') (i_symbol x)); [congruence|done].
        -- rewrite List.app_comm_cons, List.app_assoc in Heq. apply app_inj_tail in Heq as [-> <-].
           assert (Hl : register (l1 ++ (p, x) :: l2) !! p = Some x).
           { apply IH. exists l1, l2. split; [done|]. split; [|done]. intros r Hr. apply H2, elem_of_app. by left. }
           rewrite Hl. assert (i_symbol z = i_symbol x) as ->; [|by rewrite String.eqb_refl].
           apply (H2 (p, z)); [|done]. apply elem_of_app; right; by apply elem_of_list_singleton.
    + rewrite pset_other by done. rewrite IH. split.
      * intros (l1 & l2 & -> & H2 & H1). exists l1, (l2 ++ [(q, z)]).
        split; [by rewrite <- List.app_assoc|]. split; [|done].
        intros r [Hr|Hr]%elem_of_app; [by apply H2|]. apply elem_of_list_singleton in Hr as ->. done.
      * intros (l1 & l2 & Heq & H2 & H1). destruct l2 as [|r2 l2 _] using rev_ind.
        -- apply app_inj_tail in Heq as [-> [= -> ->]]. done.
        -- rewrite List.app_comm_cons, List.app_assoc in Heq. apply app_inj_tail in Heq as [-> <-].
           exists l1, l2. split; [done|]. split; [|done]. intros r Hr. apply H2, elem_of_app. by left.
Qed.

(** every recorded position lies in one of the package's files *)
Lemma foldl_put_dom ti env m evs t p :
  foldl (put ti env m) t evs !! p ≠ None → t !! p ≠ None ∨ ∃ e, e ∈ evs ∧ e_pos e = p.
Proof.
  revert t. induction evs as [|e evs IH]; intros t H; [by left|]. cbn in H. apply IH in H as [H|(e' & He & Hp)].
  - destruct (decide (e_pos e = p)) as [E|E].
    + right. exists e. split; [left|done].
    + left. unfold put in H. by rewrite pset_other in H.
  - right. exists e'. split; [by right|done].
Qed.
Lemma table_positions digest ti fs env pkg tbl p :
  visit_package_table digest ti fs env pkg = Ok tbl → tbl !! p ≠ None →
  ∃ f, f ∈ p_syntax pkg ∧ p ∈ poss f.
Proof.
  unfold visit_package_table. intros Ht Hp.
  destruct (p_module pkg) as [m|] eqn:Hm.
  - rewrite (res_fold_put ti env pkg m) in Ht by done. injection Ht as <-.
    apply foldl_put_dom in Hp as [Hp|(e & He & <-)].
    + by rewrite lookup_empty in Hp.
    + apply elem_of_concat_map in He as (f & Hf & He). exists f. split; [done|].
      by eapply file_events_poss.
  - assert (Hn := Ht). apply res_fold_no_module in Hn; [|done]. rewrite Hn in Ht. injection Ht as <-.
    by rewrite lookup_empty in Hp.
Qed.
