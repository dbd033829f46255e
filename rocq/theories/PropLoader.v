(** C26, C27, C29 and C43: the package tables built by loading. *)
From Coq Require Import Ascii String.
From stdpp Require Import prelude strings gmap relations sorting.
From Verif Require Import GoStr Scip GoTypes Ast Packages Symbols Lookup Regex Semver Paths Loader
  P_Symbols P_Sort P_Loader PropModule Index SpecIndex.
Open Scope string_scope.
Open Scope list_scope.

(** ------------------------------------------------------------------ *)
(** Hypotheses about what packages.Load returns.

    [load_input bp h0 roots]: imports and roots point to packages, the address of the
    builtin entry is fresh, and no path starts with "std/".
    [variants_agree]: if two variants of a package share a path, the one with at least as
    many files imports at least the same paths, at variants with at least as many files,
    except for variants that are roots themselves (a test variant imports everything the plain
    package does; a package compiled again for a test imports the test variant, which is a root). *)
Record load_input (bp : nat) (h0 : pheap) (roots : list nat) : Prop := LoadInput {
  in_closed : ∀ p g r, h0 !! p = Some g → r ∈ map snd (p_imports g) → is_Some (h0 !! r);
  in_roots : ∀ p, p ∈ roots → is_Some (h0 !! p);
  in_builtin : h0 !! bp = None;
  in_nostd : ∀ p g, h0 !! p = Some g → has_prefix (p_path g) "std/" = false }.
Definition variants_agree (h0 : pheap) (roots : list nat) : Prop :=
  (∀ p g q gq r gr, h0 !! p = Some g → h0 !! q = Some gq → p_path g = p_path gq →
     length (p_syntax g) <= length (p_syntax gq) →
     r ∈ map snd (p_imports g) → h0 !! r = Some gr →
     r ∈ roots ∨ ∃ r' gr', r' ∈ map snd (p_imports gq) ∧ h0 !! r' = Some gr' ∧
       p_path gr' = p_path gr ∧ length (p_syntax gr) <= length (p_syntax gr')) ∧
  (∀ p g, h0 !! p = Some g → p_path g = "builtin" → p_syntax g = [] → p_imports g = []).
(** the number of files recorded for a path *)
Definition recorded (h : pheap) (t : ptab) (k : string) : option nat :=
  match t !! k with Some q => match h !! q with Some g => Some (length (p_syntax g)) | None => None end
  | None => None end.

(** ------------------------------------------------------------------ *)
Section load.
Context (o : index_opts) (w : world) (bp : nat) (h0 : pheap) (roots : list nat).
Context (h : pheap) (all proj : ptab).
Context (Hin : load_input bp h0 roots).
Context (Hload : load_packages o w bp h0 roots h all proj).

Let o' := with_default_version o.
Let hb := <[bp := builtin_pkg bp o']> h0.
Let Rch (p : nat) : Prop := p = bp ∨ reachable h0 roots p.

Lemma hb_lookup p g : h0 !! p = Some g → hb !! p = Some g.
Proof.
  intros H. unfold hb. rewrite lookup_insert_ne; [done|]. intros <-.
  rewrite (in_builtin _ _ _ Hin) in H. done.
Qed.
Lemma hb_cases p g : hb !! p = Some g → (p = bp ∧ g = builtin_pkg bp o') ∨ h0 !! p = Some g.
Proof.
  unfold hb. destruct (decide (bp = p)) as [<-|Hne].
  - rewrite lookup_insert. intros [= <-]. by left.
  - rewrite lookup_insert_ne by done. by right.
Qed.
Lemma hb_closed : closed_heap hb.
Proof.
  intros p g r Hp Hr. destruct (hb_cases _ _ Hp) as [[-> ->]|Hp']; [by apply elem_of_nil in Hr|].
  destruct (in_closed _ _ _ Hin _ _ _ Hp' Hr) as [gr Hgr]. exists gr. by apply hb_lookup.
Qed.
Lemma hb_nostd : no_std_prefix hb.
Proof.
  intros p g Hp. destruct (hb_cases _ _ Hp) as [[-> ->]|Hp']; [done|]. by apply (in_nostd _ _ _ Hin p).
Qed.
Lemma Rch_closed p g r : Rch p → hb !! p = Some g → r ∈ map snd (p_imports g) → Rch r.
Proof.
  intros HR Hp Hr. destruct (hb_cases _ _ Hp) as [[-> ->]|Hp']; [by apply elem_of_nil in Hr|].
  destruct HR as [->|HR]; [by rewrite (in_builtin _ _ _ Hin) in Hp'|]. right. by eapply R_import.
Qed.
Lemma reachable_heap p : reachable h0 roots p → is_Some (h0 !! p).
Proof.
  induction 1 as [p Hp|p g r Hp IH Hg Hr]; [by apply (in_roots _ _ _ Hin)|].
  by apply (in_closed _ _ _ Hin _ _ _ Hg Hr).
Qed.

Lemma init_final : lfinal o' hb Rch hb {[ "builtin" := bp ]} ∅.
Proof.
  assert (hb !! bp = Some (builtin_pkg bp o')) as Hbp by apply lookup_insert.
  apply (LFinal _ _ _ _ _ _ (λ q, q = bp)).
  - constructor; cbn.
    + apply same_graph_refl.
    + intros k q H. apply lookup_singleton_Some in H as [<- <-]. eauto.
    + intros q ->. exists (builtin_pkg bp o'), bp, (builtin_pkg bp o'). split; [done|].
      split; [apply lookup_singleton|]. done.
    + intros q g r -> Hg Hr. rewrite Hbp in Hg. injection Hg as <-. by apply elem_of_nil in Hr.
    + intros q ->. by left.
    + intros q Hq. by apply elem_of_nil in Hq.
    + intros q g -> Hg. rewrite Hbp in Hg. injection Hg as <-. eauto.
  - intros k q H. by rewrite lookup_empty in H.
Qed.
Lemma load_final :
  lfinal o' hb Rch h all proj ∧
  (∀ p, p ∈ roots → covered h all p ∧ ∃ g, hb !! p = Some g ∧ is_Some (proj !! p_path g)).
Proof.
  destruct (load_loop_final o' w hb Rch hb {[ "builtin" := bp ]} ∅ roots h all proj
    hb_nostd hb_closed Rch_closed) as (H1 & H2 & _); [|apply init_final|exact Hload|done].
  intros p Hp. split; [by right; constructor|]. destruct (in_roots _ _ _ Hin p Hp) as [g Hg].
  exists g. by apply hb_lookup.
Qed.

(** every reachable package is covered (uses [variants_agree]) *)
Lemma reachable_covered p : variants_agree h0 roots → reachable h0 roots p → covered h all p.
Proof.
  intros [Hva Hvb]. destruct load_final as [[E Hinv _] Hroots].
  destruct Hinv as [Hsm Htab Hcov Himp Hre _ Hmod]. cbn in *.
  induction 1 as [p Hp|p g r Hp IH Hg Hr]; [by apply Hroots|].
  destruct IH as (g1 & q & gq & Hg1 & Hq & Hgq & Hle).
  destruct (in_closed _ _ _ Hin _ _ _ Hg Hr) as [gr Hgr].
  destruct (Htab _ _ Hq) as (gq' & Hgq' & Hk & HEq).
  assert (gq' = gq) as -> by congruence.
  destruct (same_graph_lookup _ _ _ _ Hsm (hb_lookup _ _ Hg)) as (g2 & Hg2 & Hs2).
  assert (g2 = g1) as -> by congruence.
  destruct (same_graph_lookup_r _ _ _ _ Hsm Hgq) as (gq0 & Hgq0 & Hsq).
  destruct (hb_cases _ _ Hgq0) as [[-> ->]|Hgq0'].
  { (* the recorded package is the builtin entry *)
    exfalso. destruct Hsq as (Hq1 & Hq2 & _). destruct Hs2 as (Hg21 & Hg22 & _).
    unfold nfiles in Hle. rewrite Hq2, Hg22 in Hle. cbn in Hle.
    assert (p_syntax g = []) as Hnil by (destruct (p_syntax g); [done|cbn in Hle; lia]).
    assert (p_path g = "builtin") as Hpb by (rewrite <-Hg21, <-Hk, Hq1; done).
    rewrite (Hvb _ _ Hg Hpb Hnil) in Hr. by apply elem_of_nil in Hr. }
  assert (p_path g = p_path gq0) as Hpath.
  { destruct Hs2 as (H1 & _), Hsq as (H2 & _). congruence. }
  assert (length (p_syntax g) <= length (p_syntax gq0)) as Hlen.
  { destruct Hs2 as (_ & H1 & _), Hsq as (_ & H2 & _). unfold nfiles in Hle.
    rewrite H1, H2 in Hle. done. }
  destruct (Hva _ _ _ _ _ _ Hg Hgq0' Hpath Hlen Hr Hgr) as [Hroot|(r' & gr' & Hr' & Hgr' & Hpr & Hlr)]; [by apply Hroots|].
  destruct (Himp q gq r' HEq Hgq) as [Hc|Hc]; [|
    |by apply elem_of_nil in Hc].
  { destruct Hsq as (_ & _ & ->). done. }
  destruct Hc as (gr1 & q1 & gq1 & Hgr1 & Hq1 & Hgq1 & Hle1).
  destruct (same_graph_lookup _ _ _ _ Hsm (hb_lookup _ _ Hgr')) as (x1 & Hx1 & (Hx11 & Hx12 & _)).
  assert (x1 = gr1) as -> by congruence.
  destruct (same_graph_lookup _ _ _ _ Hsm (hb_lookup _ _ Hgr)) as (x2 & Hx2 & (Hx21 & Hx22 & _)).
  exists x2, q1, gq1. split; [done|]. rewrite Hx21, <-Hpr, <-Hx11. split; [done|]. split; [done|].
  unfold nfiles in *. rewrite Hx22. rewrite Hx12 in Hle1. lia.
Qed.

Lemma table_sound k q :
  all !! k = Some q →
  k = "builtin" ∨ ∃ g g', reachable h0 roots q ∧ h0 !! q = Some g ∧ p_path g = k ∧
    h !! q = Some g' ∧ p_syntax g' = p_syntax g ∧ p_imports g' = p_imports g.
Proof.
  destruct load_final as [[E [Hsm Htab Hcov Himp Hre _ Hmod] _] _]. cbn in *. intros Hq.
  destruct (Htab _ _ Hq) as (g & Hg & Hk & HE).
  destruct (same_graph_lookup_r _ _ _ _ Hsm Hg) as (g0 & Hg0 & (H1 & H2 & H3)).
  destruct (hb_cases _ _ Hg0) as [[-> ->]|Hg0'].
  - left. by rewrite <-Hk, H1.
  - right. exists g0, g. destruct (Hre _ HE) as [->|Hr].
    { by rewrite (in_builtin _ _ _ Hin) in Hg0'. }
    split; [done|]. split; [done|]. split; [congruence|]. done.
Qed.

(** C26 *)
Theorem C26_reachable_packages_loaded :
  variants_agree h0 roots →
  (∀ p g, reachable h0 roots p → h0 !! p = Some g → is_Some (all !! p_path g)) ∧
  (∀ k, is_Some (all !! k) →
     k = "builtin" ∨ ∃ p g, reachable h0 roots p ∧ h0 !! p = Some g ∧ p_path g = k).
Proof.
  intros Hva. split.
  - intros p g Hp Hg. destruct (reachable_covered p Hva Hp) as (g1 & q & gq & Hg1 & Hq & _).
    destruct load_final as [[E [Hsm _ _ _ _ _ _] _] _]. cbn in *.
    destruct (same_graph_lookup _ _ _ _ Hsm (hb_lookup _ _ Hg)) as (g2 & Hg2 & (Hpp & _)).
    assert (g2 = g1) as -> by congruence. rewrite <-Hpp. eauto.
  - intros k [q Hq]. destruct (table_sound k q Hq) as [?|(g & g' & H1 & H2 & H3 & _)]; [by left|].
    right. eauto.
Qed.

(** C27: the recorded variant has the maximal number of files among all reachable
    variants of the path. *)
Theorem C27_largest_variant_recorded :
  variants_agree h0 roots →
  ∀ p g, reachable h0 roots p → h0 !! p = Some g →
  ∃ q gq, all !! p_path g = Some q ∧ h !! q = Some gq ∧
    length (p_syntax g) <= length (p_syntax gq) ∧
    (p_path g ≠ "builtin" → reachable h0 roots q ∧
       ∃ g0, h0 !! q = Some g0 ∧ p_path g0 = p_path g ∧ p_syntax g0 = p_syntax gq).
Proof.
  intros Hva p g Hp Hg. destruct (reachable_covered p Hva Hp) as (g1 & q & gq & Hg1 & Hq & Hgq & Hle).
  assert (same_pkg g g1) as (Hpp & Hsy & _).
  { destruct load_final as [[E [Hsm _ _ _ _ _ _] _] _]. cbn in *.
    destruct (same_graph_lookup _ _ _ _ Hsm (hb_lookup _ _ Hg)) as (g2 & Hg2 & Hs).
    by assert (g2 = g1) as -> by congruence. }
  rewrite Hpp in Hq. exists q, gq. split; [done|]. split; [done|]. split.
  - unfold nfiles in Hle. by rewrite Hsy in Hle.
  - intros Hnb. destruct (table_sound _ _ Hq) as [?|(g0 & g0' & H1 & H2 & H3 & H4 & H5 & _)]; [done|].
    split; [done|]. exists g0. split; [done|]. split; [done|]. congruence.
Qed.

(** every root has an entry among the project packages, and project packages are
    loaded packages *)
Theorem C26_project_packages :
  (∀ p g, p ∈ roots → h0 !! p = Some g → is_Some (proj !! p_path g)) ∧
  (∀ k q, proj !! k = Some q → is_Some (all !! k)).
Proof.
  destruct load_final as [[E Hinv Hpj] Hroots]. split.
  - intros p g Hp Hg. destruct (Hroots p Hp) as (_ & g' & Hg' & Hk).
    by rewrite (hb_lookup _ _ Hg) in Hg'; injection Hg' as <-.
  - intros k q Hq. destruct (Hpj _ _ Hq) as (HE & g & Hg & Hk).
    destruct (li_cov _ _ _ _ _ Hinv q HE) as (g1 & q1 & gq1 & Hg1 & Hq1 & _). cbn in *.
    assert (g1 = g) as -> by congruence. rewrite <-Hk. eauto.
Qed.

(** every loaded package has a module *)
Lemma all_have_module k q : all !! k = Some q → ∃ g m, h !! q = Some g ∧ p_path g = k ∧ p_module g = Some m.
Proof.
  destruct load_final as [[E [Hsm Htab Hcov Himp Hre _ Hmod] _] _]. cbn in *. intros Hq.
  destruct (Htab _ _ Hq) as (g & Hg & Hk & HE). destruct (Hmod _ _ HE Hg) as [m Hm]. eauto 10.
Qed.
Lemma project_imports k q g r gr :
  proj !! k = Some q → h !! q = Some g → r ∈ map snd (p_imports g) → h !! r = Some gr →
  is_Some (all !! p_path gr).
Proof.
  destruct load_final as [[E Hinv Hpj] _]. intros Hq Hg Hr Hgr.
  destruct (Hpj _ _ Hq) as (HE & _).
  destruct (li_imp _ _ _ _ _ Hinv q g r HE Hg Hr) as [Hc|Hc]; [|by apply elem_of_nil in Hc].
  destruct Hc as (g1 & q1 & gq1 & Hg1 & Hq1 & _). cbn in *.
  assert (g1 = gr) as -> by congruence. eauto.
Qed.
End load.

(** C27: the traversal always ends, on every graph (also cyclic ones), whatever the
    order in which imports are followed: every execution is finite. *)
Theorem C27_traversal_terminates o w s : Acc (λ later earlier, lstep o w earlier later) s.
Proof. destruct (bounded_exists s) as (ps & M & Hb). by eapply lstep_acc. Qed.
(** ... and an execution never gets stuck except by finishing or by the crash of
    normalising a package (a go.mod without module line). *)
Theorem C27_traversal_progress o w h t p st g :
  h !! p = Some g →
  (∃ s', lstep o w (LState h t (p :: st)) s') ∨ (∃ msg, normalize_package o w g = Panic msg).
Proof.
  intros Hp. destruct (skips h t g) eqn:Hs.
  - left. eexists. by eapply L_skip.
  - destruct (normalize_package o w g) as [g'|msg] eqn:Hn; [|right; eauto].
    left. eexists. by eapply L_visit.
Qed.
(** Any package waiting to be visited is, in the end, recorded with at least as many files
    (also without [variants_agree]). *)
Theorem C27_visited_covered o w h t st h' t' p g :
  (∀ p g, h !! p = Some g → has_prefix (p_path g) "std/" = false) →
  (∀ p g r, h !! p = Some g → r ∈ map snd (p_imports g) → is_Some (h !! r)) →
  (∀ k q, t !! k = Some q → ∃ gq, h !! q = Some gq ∧ p_path gq = k) →
  (∀ q, q ∈ st → is_Some (h !! q)) →
  rtc (lstep o w) (LState h t st) (LState h' t' []) →
  p ∈ st → h !! p = Some g →
  ∃ n, recorded h' t' (p_path g) = Some n ∧ length (p_syntax g) <= n.
Proof.
  intros Hns Hcl Htab Hst0 Hrun Hp Hg.
  remember (LState h t st) as s eqn:Es. remember (LState h' t' []) as s' eqn:Es'.
  assert (same_graph h (ls_heap s) ∧ no_std_prefix (ls_heap s) ∧
          (p ∈ ls_stack s ∨ covered (ls_heap s) (ls_tab s) p)) as (Hsm & Hn & Hc).
  { subst s. cbn. split; [apply same_graph_refl|]. split; [done|by left]. }
  assert (same_graph h h' ∧ covered h' t' p) as [Hsm' Hcov].
  { clear Es. induction Hrun as [s|s s1 s2 H1 H2 IH].
    - subst s. cbn in *. split; [done|]. destruct Hc as [Hc|Hc]; [by apply elem_of_nil in Hc|done].
    - destruct s as [hs ts ss], s1 as [h1 t1 st1]. cbn in *.
      pose proof (lstep_same _ _ _ _ _ _ _ _ Hn H1) as Hs1.
      apply IH; [done| | |].
      + by eapply same_graph_trans.
      + by eapply no_std_same.
      + destruct Hc as [Hc|Hc]; [|right; by eapply covered_mono].
        inversion H1 as [? ? p0 g0 ? Hp0 Hsk|? ? p0 g0 g0' order ? Hp0 Hsk Hnn Ho]; subst.
        * apply elem_of_cons in Hc as [->|Hc]; [right|by left].
          unfold skips, files_of in Hsk. destruct (t1 !! p_path g0) as [q|] eqn:Eq; [|done].
          destruct (h1 !! q) as [gq|] eqn:Ehq; [|done]. cbn in Hsk. apply Nat.leb_le in Hsk.
          exists g0, q, gq. done.
        * apply elem_of_cons in Hc as [->|Hc]; [right|left; apply elem_of_app; by right].
          exists g0', p0, g0'. rewrite !lookup_insert. done. }
  destruct Hcov as (g1 & q & gq & Hg1 & Hq & Hgq & Hle).
  destruct (same_graph_lookup _ _ _ _ Hsm' Hg) as (g2 & Hg2 & (Hpp & Hsy & _)).
  assert (g2 = g1) as -> by congruence.
  exists (length (p_syntax gq)). unfold recorded. rewrite <-Hpp, Hq, Hgq. split; [done|].
  unfold nfiles in Hle. by rewrite Hsy in Hle.
Qed.

(** C27: file counts do not depend on the order in which imports (or the roots) are
    visited. *)
Theorem C27_order_independent o w bp h0 roots roots' h all proj h' all' proj' :
  load_input bp h0 roots → variants_agree h0 roots → roots ≡ₚ roots' →
  load_packages o w bp h0 roots h all proj → load_packages o w bp h0 roots' h' all' proj' →
  ∀ k, recorded h all k = recorded h' all' k.
Proof.
  intros Hin Hva Hperm HL HL'.
  assert (load_input bp h0 roots') as Hin'.
  { destruct Hin as [H1 H2 H3 H4]. constructor; try done. intros p Hp. apply H2. by rewrite Hperm. }
  assert (∀ p, reachable h0 roots p ↔ reachable h0 roots' p) as Hre.
  { intros p. split; induction 1 as [p Hp|p g r Hp IH Hg Hr];
      try (by eapply R_import); apply R_root; [by rewrite <-Hperm|by rewrite Hperm]. }
  assert (variants_agree h0 roots') as Hva'.
  { destruct Hva as [Hva Hvb]. split; [|done]. intros p g q gq r gr H1 H2 H3 H4 H5 H6. destruct (Hva p g q gq r gr H1 H2 H3 H4 H5 H6) as [H|H]; [left; by rewrite <-Hperm|by right]. }
  (* one direction, then symmetry *)
  assert (∀ roots roots' h all proj h' all' proj',
    variants_agree h0 roots' → load_input bp h0 roots → load_input bp h0 roots' → (∀ p, reachable h0 roots p → reachable h0 roots' p) →
    load_packages o w bp h0 roots h all proj → load_packages o w bp h0 roots' h' all' proj' →
    ∀ k n, recorded h all k = Some n → ∃ n', recorded h' all' k = Some n' ∧ n <= n') as Hdir.
  { clear. intros roots roots' h all proj h' all' proj' Hva Hin Hin' Hre HL HL' k n.
    unfold recorded at 1. destruct (all !! k) as [q|] eqn:Hq; [|done].
    destruct (h !! q) as [gq|] eqn:Hgq; [|done]. intros [= <-].
    destruct (load_final o w bp h0 roots h all proj Hin HL) as [[E [Hsm Htab _ _ Hrch _ _] _] _]. cbn in *.
    destruct (Htab _ _ Hq) as (gq1 & Hgq1 & Hk & HE). assert (gq1 = gq) as -> by congruence.
    destruct (same_graph_lookup_r _ _ _ _ Hsm Hgq) as (g0 & Hg0 & (H1 & H2 & H3)).
    destruct (hb_cases o bp h0 _ _ Hg0) as [[-> ->]|Hg0'].
    - (* builtin *)
      destruct (load_final o w bp h0 roots' h' all' proj' Hin' HL') as [_ _].
      pose proof HL' as HL2. unfold load_packages in HL2.
      assert (∀ p, p ∈ roots' → (p = bp ∨ reachable h0 roots' p) ∧
                is_Some ((<[bp := builtin_pkg bp (with_default_version o)]> h0 : pheap) !! p)) as Hrt.
      { intros p Hp. split; [by right; constructor|]. destruct (in_roots _ _ _ Hin' p Hp) as [g Hg].
        exists g. by eapply (hb_lookup o bp h0 roots' Hin'). }
      pose proof (load_loop_final (with_default_version o) w _ (λ p, p = bp ∨ reachable h0 roots' p)
        _ _ _ _ _ _ _ (hb_nostd o bp h0 roots' Hin') (hb_closed o bp h0 roots' Hin')
        (Rch_closed o bp h0 roots' Hin') Hrt (init_final o bp h0 roots') HL2) as (_ & _ & Hmono & _).
      destruct (Hmono bp) as (g1 & q1 & gq1 & Hg1 & Hq1 & Hgq1' & Hle).
      { exists (builtin_pkg bp (with_default_version o)), bp, (builtin_pkg bp (with_default_version o)).
        rewrite lookup_insert. split; [done|]. split; [apply lookup_singleton|]. done. }
      assert (p_path g1 = "builtin") as Hpb.
      { destruct (load_final o w bp h0 roots' h' all' proj' Hin' HL') as [[E' [Hsm' _ _ _ _ _ _] _] _]. cbn in *.
        destruct (same_graph_lookup_r _ _ _ _ Hsm' Hg1) as (x & Hx & (Hx1 & _)).
        rewrite lookup_insert in Hx. injection Hx as <-. by rewrite Hx1. }
      rewrite <-Hk, H1. change (p_path (builtin_pkg bp (with_default_version o))) with "builtin".
      unfold recorded. rewrite <-Hpb, Hq1, Hgq1'. eexists. split; [done|].
      rewrite H2. cbn. lia.
    - destruct (Hrch _ HE) as [->|Hr]; [by rewrite (in_builtin _ _ _ Hin) in Hg0'|].
      destruct (C27_largest_variant_recorded o w bp h0 roots' h' all' proj' Hin' HL' Hva q g0)
        as (q' & gq' & Hq' & Hgq' & Hle & _); [by apply Hre|done|].
      exists (length (p_syntax gq')). unfold recorded. rewrite <-Hk, H1, Hq', Hgq'. split; [done|].
      by rewrite H2. }
  intros k. destruct (recorded h all k) as [n|] eqn:E1.
  - destruct (Hdir _ _ _ _ _ _ _ _ Hva' Hin Hin' (λ p, proj1 (Hre p)) HL HL' _ _ E1) as (n' & E2 & Hle).
    destruct (Hdir _ _ _ _ _ _ _ _ Hva Hin' Hin (λ p, proj2 (Hre p)) HL' HL _ _ E2) as (n2 & E3 & Hle2).
    rewrite E2. f_equal. rewrite E3 in E1. injection E1 as ->. lia.
  - destruct (recorded h' all' k) as [n'|] eqn:E2; [|done].
    destruct (Hdir _ _ _ _ _ _ _ _ Hva Hin' Hin (λ p, proj2 (Hre p)) HL' HL _ _ E2) as (n2 & E3 & _). congruence.
Qed.

(** ------------------------------------------------------------------ *)
(** A deterministic execution (imports in list order), to build examples. *)
Fixpoint run (fuel : nat) (o : index_opts) (w : world) (s : lstate) : option lstate :=
  match ls_stack s with
  | [] => Some s
  | p :: st =>
      match fuel with
      | O => None
      | S fuel =>
          match ls_heap s !! p with
          | None => None
          | Some g =>
              if skips (ls_heap s) (ls_tab s) g then run fuel o w (LState (ls_heap s) (ls_tab s) st)
              else match normalize_package o w g with
                   | Ok g' => run fuel o w (LState (<[p := g']> (ls_heap s)) (<[p_path g' := p]> (ls_tab s))
                                                  (map snd (p_imports g') ++ st))
                   | Panic _ => None
                   end
          end
      end
  end.
Lemma run_sound fuel o w s s' : run fuel o w s = Some s' → rtc (lstep o w) s s' ∧ ls_stack s' = [].
Proof.
  revert s. induction fuel as [|fuel IH]; intros [h t st]; cbn.
  - destruct st; [|done]. intros [= <-]. done.
  - destruct st as [|p st]; [intros [= <-]; done|].
    destruct (h !! p) as [g|] eqn:Hg; [|done].
    destruct (skips h t g) eqn:Hs.
    + intros H. destruct (IH _ H) as [H1 H2]. split; [|done]. eapply rtc_l; [|exact H1]. by eapply L_skip.
    + destruct (normalize_package o w g) as [g'|] eqn:Hn; [|done].
      intros H. destruct (IH _ H) as [H1 H2]. split; [|done]. eapply rtc_l; [|exact H1]. by eapply L_visit.
Qed.
Fixpoint run_loop (fuel : nat) (o : index_opts) (w : world) (h : pheap) (t pj : ptab) (ps : list nat)
  : option (pheap * ptab * ptab) :=
  match ps with
  | [] => Some (h, t, pj)
  | p :: ps =>
      match run fuel o w (LState h t [p]) with
      | Some s =>
          match ls_heap s !! p with
          | Some g => match ls_tab s !! p_path g with
                      | Some q => run_loop fuel o w (ls_heap s) (ls_tab s) (<[p_path g := q]> pj) ps
                      | None => None end
          | None => None
          end
      | None => None
      end
  end.
Lemma run_loop_sound fuel o w h t pj ps h' t' pj' :
  run_loop fuel o w h t pj ps = Some (h', t', pj') → load_loop o w h t pj ps h' t' pj'.
Proof.
  revert h t pj. induction ps as [|p ps IH]; intros h t pj; cbn.
  - intros [= <- <- <-]. constructor.
  - destruct (run fuel o w _) as [[h1 t1 st1]|] eqn:Hr; [|done]. cbn.
    destruct (h1 !! p) as [g|] eqn:Hg; [|done]. destruct (t1 !! p_path g) as [q|] eqn:Hq; [|done].
    intros H. destruct (run_sound _ _ _ _ _ Hr) as [H1 H2]. cbn in H2. subst st1.
    eapply LL_cons; [exact H1|exact Hg|exact Hq|]. by apply IH.
Qed.
Definition run_load (fuel : nat) o w bp h0 roots :=
  run_loop fuel (with_default_version o) w
    (<[bp := builtin_pkg bp (with_default_version o)]> h0) {[ "builtin" := bp ]} ∅ roots.
Lemma run_load_sound fuel o w bp h0 roots h all proj :
  run_load fuel o w bp h0 roots = Some (h, all, proj) → load_packages o w bp h0 roots h all proj.
Proof. apply run_loop_sound. Qed.

(** Example: package a imports b and c, c imports b and a cyclically; the test variant of a
    (2 files) is also a root.  The hypotheses of C26/C27 hold and loading succeeds. *)
Definition lx_file : node := NFile 1 false "" (Ident 0 "p" 9) [].
Definition lx_mod : option gmodule := Some (GMod "example.com/m" "" "/r" "" None).
Definition lx_pkg (ptr : nat) (path : string) (imports : list (string * nat)) (files : nat) : gpkg :=
  GPkg ptr path path lx_mod imports (repeat lx_file files) None None.
Definition lx_heap : pheap :=
  list_to_map [ (1, lx_pkg 1 "a" [("b", 3); ("c", 4)] 1); (2, lx_pkg 2 "a" [("b", 3); ("c", 4)] 2);
                (3, lx_pkg 3 "b" [] 1); (4, lx_pkg 4 "c" [("b", 3); ("a", 1)] 1) ].
Lemma heap_forall (h : pheap) (l : list (nat * gpkg)) (P : nat → gpkg → Prop) :
  h = list_to_map l → Forall (λ e, P e.1 e.2) l → ∀ p g, h !! p = Some g → P p g.
Proof.
  intros -> HF p g H. apply elem_of_list_to_map_2 in H. by apply (proj1 (Forall_forall _ _) HF (p, g)).
Qed.

Definition lx_list : list (nat * gpkg) :=
  [ (1, lx_pkg 1 "a" [("b", 3); ("c", 4)] 1); (2, lx_pkg 2 "a" [("b", 3); ("c", 4)] 2);
    (3, lx_pkg 3 "b" [] 1); (4, lx_pkg 4 "c" [("b", 3); ("a", 1)] 1) ].
Lemma heap_cases (l : list (nat * gpkg)) p g :
  (list_to_map l : pheap) !! p = Some g → (p, g) ∈ l.
Proof. apply elem_of_list_to_map_2. Qed.
Example C26_C27_hypotheses :
  load_input 0 lx_heap [1; 2] ∧ variants_agree lx_heap [1; 2] ∧
  ∃ h all proj, load_packages (ex_opts "v1.0.0") ex_world 0 lx_heap [1; 2] h all proj ∧
    all !! "a" = Some 2 ∧ recorded h all "a" = Some 2 ∧ recorded h all "c" = Some 1.
Proof.
  split; [|split].
  - constructor.
    + intros p g r Hp Hr. apply heap_cases in Hp.
      repeat (apply elem_of_cons in Hp as [[= -> ->]|Hp]; [cbn in Hr;
        repeat (apply elem_of_cons in Hr as [->|Hr]; [vm_compute; eauto|]); by apply elem_of_nil in Hr|]).
      by apply elem_of_nil in Hp.
    + intros p Hp. repeat (apply elem_of_cons in Hp as [->|Hp]; [vm_compute; eauto|]).
      by apply elem_of_nil in Hp.
    + reflexivity.
    + intros p g Hp. apply heap_cases in Hp.
      repeat (apply elem_of_cons in Hp as [[= -> ->]|Hp]; [reflexivity|]). by apply elem_of_nil in Hp.
  - split.
    + intros p g q gq r gr Hp Hq Hpath Hle Hr Hgr. right. exists r, gr. split; [|done].
      apply heap_cases in Hp. apply heap_cases in Hq.
      repeat (apply elem_of_cons in Hp as [[= -> ->]|Hp]; [
        repeat (apply elem_of_cons in Hq as [[= -> ->]|Hq]; [cbn in *; first [done|lia]|]);
        by apply elem_of_nil in Hq|]).
      by apply elem_of_nil in Hp.
    + intros p g Hp Hb. apply heap_cases in Hp.
      repeat (apply elem_of_cons in Hp as [[= -> ->]|Hp]; [cbn in Hb; discriminate|]). by apply elem_of_nil in Hp.
  - destruct (run_load 20 (ex_opts "v1.0.0") ex_world 0 lx_heap [1; 2]) as [[[h all] proj]|] eqn:E.
    + exists h, all, proj. split; [by eapply run_load_sound|].
      vm_compute in E. injection E as <- <- <-. split; [|split]; vm_compute; reflexivity.
    + vm_compute in E. discriminate.
Qed.

(** Finding: without [variants_agree] C26 is false.  p1 and p2 are two variants of path "a";
    p2 has fewer files and imports "b".  After p1 is recorded p2 is skipped and its import
    "b" is never loaded. *)
Definition lr_heap : pheap :=
  list_to_map [ (1, lx_pkg 1 "a" [] 2); (2, lx_pkg 2 "a" [("b", 3)] 1); (3, lx_pkg 3 "b" [] 1) ].
Theorem C26_smaller_variant_refuted :
  load_input 0 lr_heap [1; 2] ∧ reachable lr_heap [1; 2] 3 ∧
  ∃ h all proj, load_packages (ex_opts "v1.0.0") ex_world 0 lr_heap [1; 2] h all proj ∧
    all !! "b" = None.
Proof.
  split; [|split].
  - constructor.
    + intros p g r Hp Hr. apply heap_cases in Hp.
      repeat (apply elem_of_cons in Hp as [[= -> ->]|Hp]; [cbn in Hr;
        repeat (apply elem_of_cons in Hr as [->|Hr]; [vm_compute; eauto|]); by apply elem_of_nil in Hr|]).
      by apply elem_of_nil in Hp.
    + intros p Hp. repeat (apply elem_of_cons in Hp as [->|Hp]; [vm_compute; eauto|]).
      by apply elem_of_nil in Hp.
    + reflexivity.
    + intros p g Hp. apply heap_cases in Hp.
      repeat (apply elem_of_cons in Hp as [[= -> ->]|Hp]; [reflexivity|]). by apply elem_of_nil in Hp.
  - eapply R_import with (p := 2) (g := lx_pkg 2 "a" [("b", 3)] 1); [|reflexivity|by left].
    apply R_root. right. left.
  - destruct (run_load 20 (ex_opts "v1.0.0") ex_world 0 lr_heap [1; 2]) as [[[h all] proj]|] eqn:E.
    + exists h, all, proj. split; [by eapply run_load_sound|].
      vm_compute in E. injection E as <- <- <-. vm_compute; reflexivity.
    + vm_compute in E. discriminate.
Qed.

(** Finding: the skip test looks up the path before normalisation removes "std/", so a smaller
    variant "std/fmt" replaces a recorded larger "fmt". *)
Definition ls_heap0 : pheap :=
  list_to_map [ (1, GPkg 1 "fmt" "fmt" None [] [lx_file; lx_file] None None);
                (2, GPkg 2 "std/fmt" "fmt" None [] [lx_file] None None) ].
Theorem C27_std_prefix_refuted :
  ∃ h all proj, load_packages (ex_opts "v1.0.0") ex_world 0 ls_heap0 [1; 2] h all proj ∧
    recorded h all "fmt" = Some 1.
Proof.
  destruct (run_load 20 (ex_opts "v1.0.0") ex_world 0 ls_heap0 [1; 2]) as [[[h all] proj]|] eqn:E.
  - exists h, all, proj. split; [by eapply run_load_sound|].
    vm_compute in E. injection E as <- <- <-. vm_compute; reflexivity.
  - vm_compute in E. discriminate.
Qed.

(** ------------------------------------------------------------------ *)
(** C29: package symbols. *)
Lemma set_pkg_symbols_ok h (all : ptab) ks g :
  (∀ k q, all !! k = Some q → ∃ p m, h !! q = Some p ∧ p_path p = k ∧ p_module p = Some m) →
  (∀ k, k ∈ ks → is_Some (all !! k)) →
  ∃ g', set_pkg_symbols g h all ks = Ok g' ∧
    (∀ k q p m, k ∈ ks → all !! k = Some q → h !! q = Some p → p_module p = Some m →
       g_pkgsyms g' !! k = Some (format_symbol
         (Sym "scip-go" (SPkg "gomod" (m_path m) (m_version m)) [Desc k Namespace])) ∧
       g_symbols g' !! k = Some (p, ∅)) ∧
    (∀ k, k ∉ ks → g_pkgsyms g' !! k = g_pkgsyms g !! k ∧ g_symbols g' !! k = g_symbols g !! k).
Proof.
  intros Hm. revert g. induction ks as [|k ks IH]; intros g Hks.
  - exists g. split; [done|]. split; [|done]. intros ? ? ? ? H. by apply elem_of_nil in H.
  - destruct (Hks k) as [q Hq]; [left|]. destruct (Hm k q Hq) as (p & m & Hp & Hk & Hmod).
    cbn. rewrite Hq, Hp. unfold set_pkg_symbol, from_descriptors. rewrite Hmod. cbn.
    destruct (IH (Global (<[p_path p:=(p, ∅)]> (g_symbols g))
      (<[p_path p := format_symbol (Sym "scip-go" (SPkg "gomod" (m_path m) (m_version m))
                       [Desc (p_path p) Namespace])]> (g_pkgsyms g)))) as (g' & Hg' & Hin & Hout).
    { intros k' Hk'. apply Hks. by right. }
    exists g'. split; [exact Hg'|]. split.
    + intros k' q' p' m' Hk' Hq' Hp' Hm'. destruct (decide (k' ∈ ks)) as [Hi|Hi]; [by eapply Hin|].
      apply elem_of_cons in Hk' as [->|?]; [|done].
      assert (q' = q) as -> by congruence. assert (p' = p) as -> by congruence.
      assert (m' = m) as -> by congruence.
      destruct (Hout k Hi) as [-> ->]. cbn. rewrite Hk, !lookup_insert. done.
    + intros k' Hk'. apply not_elem_of_cons in Hk' as [Hne Hni]. destruct (Hout k' Hni) as [-> ->].
      cbn. rewrite Hk, !lookup_insert_ne by done. done.
Qed.
(** Registering never panics, whatever the map order, and afterwards every import of a
    project package resolves to the symbol naming that path in the module of the loaded
    package of that path. *)
Theorem C29_package_symbols o w bp h0 roots h all proj order :
  load_input bp h0 roots → load_packages o w bp h0 roots h all proj →
  order ≡ₚ map fst (map_to_list all) →
  ∃ g, set_pkg_symbols new_global h all order = Ok g ∧
    ∀ k q p name r imported,
      proj !! k = Some q → h !! q = Some p → (name, r) ∈ p_imports p → h !! r = Some imported →
      ∃ q' p' m, all !! p_path imported = Some q' ∧ h !! q' = Some p' ∧
        p_path p' = p_path imported ∧ p_module p' = Some m ∧
        get_pkg_symbol g imported = Some (format_symbol (Sym "scip-go"
          (SPkg "gomod" (m_path m) (m_version m)) [Desc (p_path imported) Namespace])).
Proof.
  intros Hin HL Ho.
  assert (∀ k, k ∈ order ↔ is_Some (all !! k)) as Hk.
  { intros k. rewrite Ho. split.
    - intros (e & -> & He)%elem_of_list_fmap. destruct e as [k q]. apply elem_of_map_to_list in He. eauto.
    - intros [q Hq]. apply elem_of_list_fmap. exists (k, q). split; [done|]. by apply elem_of_map_to_list. }
  destruct (set_pkg_symbols_ok h all order new_global) as (g & Hg & Hs & _).
  { intros k q Hq. destruct (all_have_module o w bp h0 roots h all proj Hin HL k q Hq) as (p & m & H1 & H2 & H3).
    eauto. }
  { intros k. apply Hk. }
  exists g. split; [done|]. intros k q p name r imp Hq Hp Hr Himp.
  destruct (project_imports o w bp h0 roots h all proj Hin HL k q p r imp Hq Hp) as [q' Hq']; [|done|].
  { apply elem_of_list_fmap. by exists (name, r). }
  destruct (all_have_module o w bp h0 roots h all proj Hin HL _ _ Hq') as (p' & m & Hp' & Hpp & Hm).
  exists q', p', m. split; [done|]. split; [done|]. split; [done|]. split; [done|].
  unfold get_pkg_symbol, get_pkg_symbol_by_id. destruct (Hs (p_path imp) q' p' m) as [H _]; try done.
  apply Hk. eauto.
Qed.
Example C29_example :
  ∃ h all proj q p, load_packages (ex_opts "v1.0.0") ex_world 0 lx_heap [1; 2] h all proj ∧
    proj !! "a" = Some q ∧ h !! q = Some p ∧ ("c", 4) ∈ p_imports p ∧
    ∃ g, set_pkg_symbols new_global h all (map fst (map_to_list all)) = Ok g ∧
         g_pkgsyms g !! "c" = Some "scip-go gomod example.com/m v1.0.0 c/".
Proof.
  destruct (run_load 20 (ex_opts "v1.0.0") ex_world 0 lx_heap [1; 2]) as [[[h all] proj]|] eqn:E.
  - exists h, all, proj. eexists _, _. split; [by eapply run_load_sound|].
    vm_compute in E. injection E as <- <- <-. split; [vm_compute; reflexivity|].
    split; [vm_compute; reflexivity|]. split; [cbn; right; left|].
    eexists. split; [vm_compute; reflexivity|]. vm_compute; reflexivity.
  - vm_compute in E. discriminate.
Qed.

(** ------------------------------------------------------------------ *)
(** C43 *)
Lemma lists_unique t l l' : lists t l → lists t l' → l = l'.
Proof.
  intros (H1 & H2 & H3) (H1' & H2' & H3').
  apply (StronglySorted_unique str_le); [done|done|].
  apply NoDup_Permutation; [done|done|]. intros k. by rewrite H1, H1'.
Qed.
Lemma sorted_keys_lists (t : ptab) order : order ≡ₚ map fst (map_to_list t) → lists t (sorted_keys order).
Proof.
  intros Ho. unfold lists, sorted_keys.
  assert (merge_sort str_le order ≡ₚ map fst (map_to_list t)) as Hp.
  { rewrite merge_sort_Permutation. done. }
  split; [|split].
  - intros k. rewrite Hp. split.
    + intros (e & -> & He)%elem_of_list_fmap. destruct e as [k q]. apply elem_of_map_to_list in He. eauto.
    + intros [q Hq]. apply elem_of_list_fmap. exists (k, q). split; [done|]. by apply elem_of_map_to_list.
  - rewrite Hp. apply NoDup_fst_map_to_list.
  - apply StronglySorted_merge_sort; apply _.
Qed.
Theorem C43_get_packages o w bp h0 roots h all proj po ao :
  load_input bp h0 roots → load_packages o w bp h0 roots h all proj →
  po ≡ₚ map fst (map_to_list proj) → ao ≡ₚ map fst (map_to_list all) →
  ∃ current deps, get_packages po ao = (current, deps) ∧
    lists proj current ∧ lists all deps ∧ (∀ k, k ∈ current → k ∈ deps) ∧
    (∀ p g, p ∈ roots → h0 !! p = Some g → p_path g ∈ current).
Proof.
  intros Hin HL Hp Ha. eexists _, _. split; [done|].
  pose proof (sorted_keys_lists _ _ Hp) as Hlp. pose proof (sorted_keys_lists _ _ Ha) as Hla.
  split; [done|]. split; [done|].
  destruct (C26_project_packages o w bp h0 roots h all proj Hin HL) as [H1 H2].
  destruct Hlp as (Hlp & _), Hla as (Hla & _). split.
  - intros k Hk. apply Hla. apply Hlp in Hk as [q Hq]. by eapply H2.
  - intros p g Hr Hg. apply Hlp. by eapply H1.
Qed.
(** the same for every iteration order *)
Theorem C43_order_independent (proj all : ptab) po ao po' ao' :
  po ≡ₚ map fst (map_to_list proj) → po' ≡ₚ map fst (map_to_list proj) →
  ao ≡ₚ map fst (map_to_list all) → ao' ≡ₚ map fst (map_to_list all) →
  get_packages po ao = get_packages po' ao'.
Proof.
  intros H1 H2 H3 H4. unfold get_packages. f_equal.
  - by apply (lists_unique proj); apply sorted_keys_lists.
  - by apply (lists_unique all); apply sorted_keys_lists.
Qed.
Example C43_example :
  get_packages ["c"; "a"; "b"] ["builtin"; "a/b"; "c"; "b"; "a"] =
    (["a"; "b"; "c"], ["a"; "a/b"; "b"; "builtin"; "c"]).
Proof. vm_compute; reflexivity. Qed.
