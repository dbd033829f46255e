(** Proofs about documentation and deprecation. *)
From Coq Require Import Ascii String.
From stdpp Require Import prelude strings gmap.
From Verif Require Import GoStr Scip GoTypes Ast Packages Symbols Document Lookup Pass1
  SpecSymbol SpecDecl P_Symbols P_Pass1.
Open Scope string_scope.
Open Scope list_scope.

Lemma doc_entries_le own block : length (doc_entries own block) ≤ 2.
Proof. unfold doc_entries. repeat (destruct (String.eqb _ _)); cbn; lia. Qed.
Lemma doc_entries_ok own block : NoDup (doc_entries own block) ∧ "" ∉ doc_entries own block.
Proof.
  unfold doc_entries.
  destruct (String.eqb_spec own ""), (String.eqb_spec block ""), (String.eqb_spec block own); cbn;
    subst; (split; [repeat constructor; set_solver|set_solver]).
Qed.

Lemma documentation_spec_group p k gdoc specs i s :
  s ∈ specs → i ∈ spec_names s →
  (∀ s', s' ∈ specs → declares_ident i s' = true → s' = s) →
  documentation (Some (NGenDecl p k gdoc specs)) i = doc_entries (own_comment s) (trim_space gdoc).
Proof.
  intros Hs Hi Hu.
  assert (Hd : declares_ident i s = true).
  { destruct s; cbn in *; try (by apply elem_of_nil in Hi).
    - apply elem_of_list_singleton in Hi as <-. apply Nat.eqb_refl.
    - apply List.existsb_exists. exists i. split; [by apply elem_of_list_In|apply Nat.eqb_refl]. }
  assert (Hf : List.find (declares_ident i) specs = Some s).
  { destruct (List.find (declares_ident i) specs) as [s'|] eqn:E.
    - apply List.find_some in E as [E1 E2]. f_equal. apply Hu; [by apply elem_of_list_In|done].
    - exfalso. eapply List.find_none in E; [|by apply elem_of_list_In]. congruence. }
  unfold documentation. cbn [hover_ident]. rewrite Hf. unfold hover_spec.
  assert (Ho : hover_node s = own_comment s).
  { destruct s; cbn in *; try done; by apply elem_of_nil in Hi. }
  rewrite Ho. cbn [hover_node]. unfold doc_entries.
  destruct (String.eqb_spec (own_comment s) "") as [E|E].
  - destruct (String.eqb_spec (trim_space gdoc) "") as [E2|E2].
    + done.
    + cbn. rewrite String.eqb_refl. rewrite E. destruct (String.eqb_spec (trim_space gdoc) ""); done.
  - destruct (String.eqb_spec (own_comment s) ""); [done|].
    destruct (String.eqb_spec (trim_space gdoc) "") as [E2|E2]; [by rewrite List.app_nil_r|].
    rewrite String.eqb_sym. destruct (String.eqb _ _); [by rewrite List.app_nil_r|done].
Qed.

Lemma documentation_func doc p e r nm t b i :
  documentation (Some (NFuncDecl doc p e r nm t b)) i = doc_entries (trim_space doc) "".
Proof. unfold documentation, doc_entries. cbn. by rewrite List.app_nil_r. Qed.
Lemma documentation_field doc cmt ns t i :
  documentation (Some (NField doc cmt ns t)) i = doc_entries (trim_space (doc +:+ nl +:+ cmt)) "".
Proof. unfold documentation, doc_entries. cbn. by rewrite List.app_nil_r. Qed.

Lemma spec_names_poss s i : i ∈ spec_names s → id_pos i ∈ poss s ∧ NIdent i ∈ node_children s.
Proof.
  intros Hi. assert (H : NIdent i ∈ node_children s).
  { destruct s; cbn in *; try (by apply elem_of_nil in Hi).
    - apply elem_of_list_singleton in Hi as <-. left.
    - apply elem_of_app. left. by apply elem_of_list_fmap_1. }
  split; [|done]. apply (poss_child s (NIdent i)); [done|apply poss_ident].
Qed.

Lemma declared_documentation digest ti fs env pkg tbl i k par :
  wf_pkg_pos pkg → distinct_ptrs pkg → pkg_declares_by pkg i k par →
  (is_value_key k = true → common_before pkg i ∧ no_group_before pkg i) →
  (0 < id_pos i)%Z → visit_package_table digest ti fs env pkg = Ok tbl →
  ∃ info, tbl !! id_pos i = Some info ∧ documented_as par i (i_documentation info).
Proof.
  intros Hwf Hptr Hd Hv Hp Ht.
  assert (Hcv : is_value_key k = true → common_before pkg i) by tauto.
  destruct (declared_entry digest ti fs env pkg tbl i k par Hwf Hd Hcv Hp Ht)
    as (m & info & e & Hm & Hl & Hs & He & Hpos & -> & Hid & _).
  exists (event_info ti env m e). split; [done|].
  assert (Hpar : e_parent e = Some par).
  { eapply (package_events_parent digest ti fs); try done. tauto. }
  unfold event_info. cbn [i_documentation new_symbol_info]. rewrite Hpar, Hid.
  destruct Hd as (f & Hf & (p & h & d & nm & decls & decl & -> & Hdecl & Hd)).
  assert (Hgroup : ∀ p' tok gdoc specs s, decl = NGenDecl p' tok gdoc specs → s ∈ specs →
    i ∈ spec_names s → documented_as (NGenDecl p' tok gdoc specs) i
                         (documentation (Some (NGenDecl p' tok gdoc specs)) i)).
  { intros p' tok gdoc specs s -> Hsp Hi. exists s. split; [done|]. split; [done|].
    apply documentation_spec_group; [done|done|]. intros s' Hs' Hdec.
    assert (Hwd : wf_pos (NGenDecl p' tok gdoc specs)).
    { destruct Hwf as [Hwf _]. eapply wf_pos_child; [|exact (Hwf _ Hf)]. child_mem. }
    assert (∃ j, j ∈ spec_names s' ∧ id_ptr j = id_ptr i) as (j & Hj & Hji).
    { destruct s'; cbn in Hdec; try done.
      - apply Nat.eqb_eq in Hdec. exists name. split; [by apply elem_of_list_singleton|done].
      - apply List.existsb_exists in Hdec as (j & Hj & Hdec). apply Nat.eqb_eq in Hdec.
        exists j. split; [by apply elem_of_list_In|done]. }
    assert (Hsub : ∀ x s, s ∈ specs → x ∈ spec_names s → NIdent x ∈ subnodes (NFile p h d nm decls)).
    { intros x s1 Hs1 Hx. eapply (subnodes_child _ (NGenDecl p' tok gdoc specs)); [child_mem|].
      eapply (subnodes_child _ s1); [done|]. eapply subnodes_child; [by apply spec_names_poss|].
      apply subnodes_self. }
    assert (j = i) as -> by (eapply Hptr; eauto).
    eapply (wf_pos_children (NGenDecl p' tok gdoc specs)); [done|done|done|exact Hp| |];
      by apply spec_names_poss. }
  destruct Hd; try (by apply documentation_field); try (by apply documentation_func).
  - eapply Hgroup; [done|done|by apply elem_of_list_singleton].
  - eapply Hgroup; done.
Qed.

(** *** Deprecated: *)
Lemma has_prefix_split_first p s :
  str_forallb (λ c, negb (Ascii.eqb c newline)) p = true →
  has_prefix s p = match split_on newline s with l :: _ => has_prefix l p | [] => false end.
Proof.
  revert p. induction s as [|c s IH]; intros p Hp.
  - cbn. done.
  - cbn [split_on]. destruct p as [|a p].
    + destruct (Ascii.eqb_spec c newline); [done|]. destruct (split_on newline s); done.
    + cbn [str_forallb] in Hp. apply andb_true_iff in Hp as [Ha Hp].
      destruct (Ascii.eqb_spec c newline) as [->|Hc].
      * cbn. destruct (ascii_dec a newline) as [->|]; [done|done].
      * specialize (IH p Hp).
        destruct (split_on newline s) as [|l ls] eqn:E; [by apply split_on_ne in E|].
        unfold has_prefix in *. cbn. destruct (ascii_dec a c); [exact IH|done].
Qed.

Lemma line_deprecated_cons c d :
  line_deprecated (String c d) ↔
  has_prefix (String c d) "Deprecated:" = true ∨
  (c = newline ∧ has_prefix d "Deprecated:" = true) ∨
  (∃ a b a', d = a +:+ "Deprecated:" +:+ b ∧ a = a' +:+ nl).
Proof.
  split.
  - intros (a & b & E & [->|(a' & ->)]).
    + left. rewrite E, app_nil_l. apply has_prefix_app.
    + destruct a' as [|c' a'].
      * right. left. rewrite app_nil_l in E. unfold nl in E. rewrite app_cons, app_nil_l in E.
        injection E as -> ->. split; [done|]. apply has_prefix_app.
      * right. right. rewrite !app_cons in E. injection E as -> ->. by exists (a' +:+ nl), b, a'.
  - intros [H|[[-> H]|(a & b & a' & -> & ->)]].
    + apply has_prefix_spec in H as (r & ->). exists "", r. split; [done|by left].
    + apply has_prefix_spec in H as (r & ->). exists nl, r. split; [done|]. right. by exists "".
    + exists (String c (a' +:+ nl)), b. split; [done|]. right. by exists (String c a').
Qed.

Lemma existsb_split_deprecated d :
  existsb (λ line, has_prefix line "Deprecated:") (split_on newline d) = true ↔ line_deprecated d.
Proof.
  assert (Hnn : str_forallb (λ c, negb (Ascii.eqb c newline)) "Deprecated:" = true) by reflexivity.
  assert (Hstrong : ∀ d,
    (existsb (λ line, has_prefix line "Deprecated:") (tl (split_on newline d)) = true ↔
     ∃ a b a', d = a +:+ "Deprecated:" +:+ b ∧ a = a' +:+ nl)).
  { clear d. induction d as [|c d IH].
    - cbn. split; [done|]. intros (a & b & a' & E & ->).
      symmetry in E. apply app_eq_nil in E as [E _]. by apply app_eq_nil in E as [_ E].
    - transitivity ((c = newline ∧ has_prefix d "Deprecated:" = true) ∨
        (∃ a b a', d = a +:+ "Deprecated:" +:+ b ∧ a = a' +:+ nl)).
      + cbn [split_on]. rewrite <- IH.
        rewrite (has_prefix_split_first "Deprecated:" d Hnn).
        destruct (split_on newline d) as [|l ls] eqn:E; [by apply split_on_ne in E|].
        destruct (Ascii.eqb_spec c newline) as [->|Hc]; cbn [tl existsb].
        * rewrite orb_true_iff. tauto.
        * naive_solver.
      + split.
        * intros [[-> H]|(a & b & a' & -> & ->)].
          -- apply has_prefix_spec in H as (r & ->). by exists nl, r, "".
          -- by exists (String c (a' +:+ nl)), b, (String c a').
        * intros (a & b & a' & E & ->). destruct a' as [|c' a'].
          -- left. rewrite app_nil_l in E. unfold nl in E. rewrite app_cons, app_nil_l in E.
             injection E as -> ->. split; [done|]. apply has_prefix_app.
          -- right. rewrite !app_cons in E. injection E as -> ->. by exists (a' +:+ nl), b, a'. }
  destruct (split_on newline d) as [|l ls] eqn:E; [by apply split_on_ne in E|].
  cbn [existsb]. rewrite orb_true_iff.
  specialize (Hstrong d). rewrite E in Hstrong. cbn [tl] in Hstrong. rewrite Hstrong.
  assert (Hf := has_prefix_split_first "Deprecated:" d Hnn). rewrite E in Hf. rewrite <- Hf.
  rewrite has_prefix_spec. unfold line_deprecated. split.
  - intros [(r & ->)|(a & b & a' & -> & ->)].
    + exists "", r. split; [done|by left].
    + exists (a' +:+ nl), b. split; [done|]. right. by exists a'.
  - intros (a & b & -> & [->|(a' & ->)]); [left; by exists b|right; by exists (a' +:+ nl), b, a'].
Qed.

Lemma is_doc_deprecated_spec docs :
  is_doc_deprecated docs = true ↔ ∃ d, d ∈ docs ∧ line_deprecated d.
Proof.
  unfold is_doc_deprecated. rewrite List.existsb_exists.
  setoid_rewrite existsb_split_deprecated. setoid_rewrite elem_of_list_In. done.
Qed.
