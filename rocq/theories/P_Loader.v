(** The package traversal: termination and invariants. *)
From Coq Require Import Ascii String.
From stdpp Require Import prelude strings gmap relations.
From Verif Require Import GoStr Scip GoTypes Ast Packages Symbols Lookup Regex Semver Paths Loader.
Open Scope string_scope.
Open Scope list_scope.

(** what normalizePackage changes: the module, and possibly a "std/" prefix *)
Lemma normalize_keeps o w g g' :
  normalize_package o w g = Ok g' →
  nfiles g' = nfiles g ∧ p_syntax g' = p_syntax g ∧ p_imports g' = p_imports g ∧
  (p_path g' = p_path g ∨ p_path g' = trim_prefix (p_path g) "std/") ∧
  is_Some (p_module g').
Proof.
  unfold normalize_package. destruct (io_driver_set o).
  { intros [= <-]. cbn. split_and!; eauto. }
  destruct (is_standard_lib g || io_indexing_stdlib o)%bool.
  - cbn [p_module with_path with_module]. destruct (resolve_local _ _); [|done]. cbn.
    intros [= <-]. cbn. split_and!; eauto.
  - destruct (p_module g); [|done]. destruct (resolve_local _ _); [|done]. cbn.
    intros [= <-]. cbn. split_and!; eauto.
Qed.
Lemma trim_prefix_le s p : slen (trim_prefix s p) <= slen s.
Proof. unfold trim_prefix. destruct (has_prefix s p); [rewrite slen_drop|]; lia. Qed.
Lemma trim_prefix_eq_len s p : slen (trim_prefix s p) = slen s → trim_prefix s p = s.
Proof.
  unfold trim_prefix. destruct (has_prefix s p) eqn:E; [|done].
  apply has_prefix_spec in E as [r ->]. rewrite str_drop_app by done. rewrite slen_app.
  intros H. assert (slen p = 0) by lia. apply slen_zero in H0 as ->. done.
Qed.

(** ------------------------------------------------------------------ *)
(** Termination *)
Fixpoint sum_with {A} (f : A → nat) (l : list A) : nat :=
  match l with [] => 0 | a :: l' => f a + sum_with f l' end.
Lemma sum_with_le {A} (f g : A → nat) l :
  (∀ x, x ∈ l → f x <= g x) → sum_with f l <= sum_with g l.
Proof.
  induction l as [|a l IH]; intros H; cbn; [lia|].
  pose proof (H a ltac:(left)). assert (sum_with f l <= sum_with g l); [|lia].
  apply IH. intros x Hx. apply H. by right.
Qed.
Lemma sum_with_lt {A} (f g : A → nat) l y :
  (∀ x, x ∈ l → f x <= g x) → y ∈ l → f y < g y → sum_with f l < sum_with g l.
Proof.
  induction l as [|a l IH]; intros H Hy Hlt; [by apply elem_of_nil in Hy|].
  cbn. pose proof (H a ltac:(left)).
  assert (∀ x, x ∈ l → f x <= g x) as Hl by (intros x Hx; apply H; by right).
  apply elem_of_cons in Hy as [->|Hy].
  - pose proof (sum_with_le f g l Hl). lia.
  - pose proof (IH Hl Hy Hlt). lia.
Qed.

Definition plen (h : pheap) (p : nat) : nat :=
  match h !! p with Some g => slen (p_path g) | None => 0 end.
Definition tval (h : pheap) (t : ptab) (k : string) : nat :=
  match files_of h t k with Some n => S n | None => 0 end.
Definition deficit (M : nat) (h : pheap) (t : ptab) (p : nat) : nat :=
  match h !! p with Some g => S M - tval h t (p_path g) | None => 0 end.
Definition mA (ps : list nat) (s : lstate) : nat := sum_with (plen (ls_heap s)) ps.
Definition mB (ps : list nat) (M : nat) (s : lstate) : nat :=
  sum_with (deficit M (ls_heap s) (ls_tab s)) ps.
Definition bounded (ps : list nat) (M : nat) (s : lstate) : Prop :=
  ∀ p g, ls_heap s !! p = Some g → p ∈ ps ∧ nfiles g <= M.

Lemma files_of_insert h t p g g' k :
  h !! p = Some g → nfiles g' = nfiles g → files_of (<[p := g']> h) t k = files_of h t k.
Proof.
  intros Hp Hn. unfold files_of. destruct (t !! k) as [q|]; [|done].
  destruct (decide (q = p)) as [->|Hne].
  - rewrite lookup_insert, Hp. cbn. by rewrite Hn.
  - by rewrite lookup_insert_ne.
Qed.
Lemma files_of_tab_insert h t p g k k' :
  h !! p = Some g →
  files_of h (<[k := p]> t) k' = if decide (k = k') then Some (nfiles g) else files_of h t k'.
Proof.
  intros Hp. unfold files_of. destruct (decide (k = k')) as [->|Hne].
  - rewrite lookup_insert, Hp. done.
  - by rewrite lookup_insert_ne.
Qed.

Lemma lstep_bounded o w ps M s s' :
  bounded ps M s → lstep o w s s' → bounded ps M s'.
Proof.
  intros Hb Hs. destruct Hs as [h t p g st Hp Hsk|h t p g g' order st Hp Hsk Hn Ho]; [done|].
  intros q gq. cbn. destruct (decide (p = q)) as [<-|Hne].
  - rewrite lookup_insert. intros [= <-]. destruct (normalize_keeps _ _ _ _ Hn) as [-> _].
    by apply (Hb p g).
  - rewrite lookup_insert_ne by done. apply Hb.
Qed.
Lemma lstep_measure o w ps M s s' :
  bounded ps M s → lstep o w s s' →
  mA ps s' < mA ps s ∨
  (mA ps s' = mA ps s ∧ mB ps M s' < mB ps M s) ∨
  (mA ps s' = mA ps s ∧ mB ps M s' = mB ps M s ∧ length (ls_stack s') < length (ls_stack s)).
Proof.
  intros Hb Hs. destruct Hs as [h t p g st Hp Hsk|h t p g g' order st Hp Hsk Hn Ho].
  - right. right. unfold mA, mB. cbn. lia.
  - destruct (normalize_keeps _ _ _ _ Hn) as (Hnf & _ & _ & Hpath & _).
    destruct (Hb p g Hp) as [Hin HM].
    assert (∀ x, x ∈ ps → plen (<[p:=g']> h) x <= plen h x) as Hle.
    { intros x _. unfold plen. destruct (decide (p = x)) as [<-|Hne].
      - rewrite lookup_insert, Hp. destruct Hpath as [->| ->]; [done|apply trim_prefix_le].
      - by rewrite lookup_insert_ne. }
    assert (slen (p_path g') <= slen (p_path g)) as Hpl.
    { destruct Hpath as [->| ->]; [done|apply trim_prefix_le]. }
    destruct (decide (slen (p_path g') = slen (p_path g))) as [Heq|Hlt].
    + assert (p_path g' = p_path g) as Hpp.
      { destruct Hpath as [|E]; [done|]. rewrite E in *. by apply trim_prefix_eq_len. }
      right. left. split.
      * unfold mA. cbn. clear -Hpp Hp. assert (∀ x, plen (<[p:=g']> h) x = plen h x) as HE.
        { intros x. unfold plen. destruct (decide (p = x)) as [<-|Hne].
          - by rewrite lookup_insert, Hp, Hpp.
          - by rewrite lookup_insert_ne. }
        induction ps as [|a ps IH]; [done|]. cbn. by rewrite IH, HE.
      * unfold mB. cbn.
        assert (∀ x, deficit M (<[p:=g']> h) (<[p_path g':=p]> t) x =
          match h !! x with
          | Some gx => S M - (if decide (p_path g = p_path gx) then S (nfiles g) else tval h t (p_path gx))
          | None => 0 end) as HE.
        { intros x. unfold deficit.
          assert (∀ k, tval (<[p:=g']> h) (<[p_path g':=p]> t) k =
             if decide (p_path g = k) then S (nfiles g) else tval h t k) as Htv.
          { intros k. unfold tval. erewrite files_of_tab_insert by apply lookup_insert.
            rewrite Hpp, Hnf. destruct (decide (p_path g = k)); [done|].
            erewrite files_of_insert by done. done. }
          destruct (decide (p = x)) as [<-|Hne].
          - rewrite lookup_insert, Hp. rewrite Htv, Hpp. done.
          - rewrite lookup_insert_ne by done. destruct (h !! x); [|done]. by rewrite Htv. }
        assert (tval h t (p_path g) < S (nfiles g)) as Hlow.
        { unfold skips in Hsk. unfold tval. destruct (files_of h t (p_path g)); [|lia].
          apply Nat.leb_gt in Hsk. lia. }
        apply sum_with_lt with (y := p); [|done|].
        -- intros x _. rewrite HE. unfold deficit. destruct (h !! x) as [gx|]; [|done].
           destruct (decide (p_path g = p_path gx)) as [<-|]; lia.
        -- rewrite HE. unfold deficit. rewrite Hp.
           destruct (decide (p_path g = p_path g)); [lia|done].
    + left. unfold mA. cbn. apply sum_with_lt with (y := p); [done|done|].
      unfold plen. rewrite lookup_insert, Hp. lia.
Qed.

Lemma lstep_acc o w ps M s : bounded ps M s → Acc (λ x y, lstep o w y x) s.
Proof.
  remember (mA ps s) as a eqn:Ha. remember (mB ps M s) as b eqn:Hb.
  remember (length (ls_stack s)) as c eqn:Hc.
  revert b c s Ha Hb Hc. induction a as [a IHa] using lt_wf_ind.
  intros b. induction b as [b IHb] using lt_wf_ind.
  intros c. induction c as [c IHc] using lt_wf_ind.
  intros s -> -> -> Hbd. constructor. intros s' Hs.
  pose proof (lstep_bounded _ _ _ _ _ _ Hbd Hs) as Hbd'.
  destruct (lstep_measure _ _ _ _ _ _ Hbd Hs) as [H|[[H1 H2]|(H1 & H2 & H3)]].
  - eapply IHa; eauto.
  - eapply IHb; eauto.
  - eapply IHc; eauto.
Qed.

Lemma max_files (h : pheap) : ∃ M, ∀ p g, h !! p = Some g → nfiles g <= M.
Proof.
  induction h as [|p g h Hp [M IH]] using map_ind.
  - exists 0. intros p g H. by rewrite lookup_empty in H.
  - exists (M + nfiles g). intros q gq. destruct (decide (p = q)) as [<-|Hne].
    + rewrite lookup_insert. intros [= <-]. lia.
    + rewrite lookup_insert_ne by done. intros H. specialize (IH _ _ H). lia.
Qed.
Lemma bounded_exists s : ∃ ps M, bounded ps M s.
Proof.
  destruct (max_files (ls_heap s)) as [M HM]. exists (base.elements (dom (ls_heap s))), M.
  intros p g H. split; [|by eapply HM]. apply elem_of_elements, elem_of_dom. eauto.
Qed.

(** ------------------------------------------------------------------ *)
(** Invariants, for heaps without "std/" prefixed paths *)
Definition no_std_prefix (h : pheap) : Prop :=
  ∀ p g, h !! p = Some g → has_prefix (p_path g) "std/" = false.
Definition closed_heap (h : pheap) : Prop :=
  ∀ p g r, h !! p = Some g → r ∈ map snd (p_imports g) → is_Some (h !! r).
(** the same graph: same pointers, paths, imports and file counts *)
Definition same_pkg (g g' : gpkg) : Prop :=
  p_path g' = p_path g ∧ p_syntax g' = p_syntax g ∧ p_imports g' = p_imports g.
Definition same_graph (h h' : pheap) : Prop :=
  ∀ p, match h !! p, h' !! p with
       | Some g, Some g' => same_pkg g g'
       | None, None => True
       | _, _ => False
       end.
Lemma same_graph_refl h : same_graph h h.
Proof. intros p. by destruct (h !! p). Qed.
Lemma same_graph_trans h1 h2 h3 : same_graph h1 h2 → same_graph h2 h3 → same_graph h1 h3.
Proof.
  intros H1 H2 p. specialize (H1 p). specialize (H2 p).
  destruct (h1 !! p), (h2 !! p), (h3 !! p); try done.
  destruct H1 as (A1 & A2 & A3), H2 as (B1 & B2 & B3). repeat split; congruence.
Qed.
Lemma same_graph_lookup h h' p g : same_graph h h' → h !! p = Some g → ∃ g', h' !! p = Some g' ∧ same_pkg g g'.
Proof. intros H E. specialize (H p). rewrite E in H. destruct (h' !! p); [eauto|done]. Qed.
Lemma same_graph_lookup_r h h' p g' : same_graph h h' → h' !! p = Some g' → ∃ g, h !! p = Some g ∧ same_pkg g g'.
Proof. intros H E. specialize (H p). rewrite E in H. destruct (h !! p); [eauto|done]. Qed.
Lemma same_pkg_nfiles g g' : same_pkg g g' → nfiles g' = nfiles g.
Proof. intros (_ & H & _). unfold nfiles. by rewrite H. Qed.

(** [covered h t p]: the table has p's path with at least as many files *)
Definition covered (h : pheap) (t : ptab) (p : nat) : Prop :=
  ∃ g q gq, h !! p = Some g ∧ t !! p_path g = Some q ∧ h !! q = Some gq ∧ nfiles g <= nfiles gq.

Lemma lstep_same o w h t st h' t' st' :
  no_std_prefix h → lstep o w (LState h t st) (LState h' t' st') → same_graph h h'.
Proof.
  intros Hns Hs. inversion Hs as [? ? p g ? Hp Hsk|? ? p g g' order ? Hp Hsk Hn Ho]; subst.
  - apply same_graph_refl.
  - intros q. destruct (decide (p = q)) as [<-|Hne].
    + rewrite lookup_insert, Hp. destruct (normalize_keeps _ _ _ _ Hn) as (_ & H1 & H2 & H3 & _).
      split; [|done]. destruct H3 as [H3|H3]; [done|]. rewrite H3. apply trim_prefix_id. by eapply Hns.
    + rewrite lookup_insert_ne by done. by destruct (h !! q).
Qed.
Lemma no_std_same h h' : same_graph h h' → no_std_prefix h → no_std_prefix h'.
Proof.
  intros Hs Hn p g' E. destruct (same_graph_lookup_r _ _ _ _ Hs E) as (g & Eg & (-> & _)).
  by eapply Hn.
Qed.
Lemma closed_same h h' : same_graph h h' → closed_heap h → closed_heap h'.
Proof.
  intros Hs Hc p g' r E Hr. destruct (same_graph_lookup_r _ _ _ _ Hs E) as (g & Eg & (_ & _ & Hi)).
  rewrite Hi in Hr. destruct (Hc _ _ _ Eg Hr) as [gr Er].
  destruct (same_graph_lookup _ _ _ _ Hs Er) as (gr' & -> & _). eauto.
Qed.
(** the table never loses a key nor files *)
Lemma covered_mono o w h t st h' t' st' p :
  no_std_prefix h → lstep o w (LState h t st) (LState h' t' st') → covered h t p → covered h' t' p.
Proof.
  intros Hns Hs (g & q & gq & Hp & Ht & Hq & Hle).
  pose proof (lstep_same _ _ _ _ _ _ _ _ Hns Hs) as Hsm.
  destruct (same_graph_lookup _ _ _ _ Hsm Hp) as (g1 & Hp1 & Hsp).
  destruct (same_graph_lookup _ _ _ _ Hsm Hq) as (gq1 & Hq1 & Hsq).
  pose proof (same_pkg_nfiles _ _ Hsp) as Hn1. pose proof (same_pkg_nfiles _ _ Hsq) as Hn2.
  inversion Hs as [? ? p0 g0 ? Hp0 Hsk|? ? p0 g0 g0' order ? Hp0 Hsk Hn Ho]; subst.
  - exists g, q, gq. done.
  - assert (p_path g0' = p_path g0) as Hpath.
    { specialize (Hsm p0). rewrite Hp0, lookup_insert in Hsm. by destruct Hsm. }
    destruct Hsp as (Hpp & _). destruct (decide (p_path g0' = p_path g)) as [E|Hne].
    + exists g1, p0, g0'. split; [done|]. rewrite Hpp, E, lookup_insert. split; [done|].
      rewrite lookup_insert. split; [done|].
      unfold skips, files_of in Hsk. rewrite <-Hpath, E, Ht, Hq in Hsk. cbn in Hsk.
      apply Nat.leb_gt in Hsk. destruct (normalize_keeps _ _ _ _ Hn) as [Hnf _]. lia.
    + exists g1, q, gq1. split; [done|]. rewrite Hpp, lookup_insert_ne by done. split; [done|].
      split; [done|lia].
Qed.

(** reachability through imports *)
Inductive reachable (h : pheap) (roots : list nat) : nat → Prop :=
| R_root p : p ∈ roots → reachable h roots p
| R_import p g r : reachable h roots p → h !! p = Some g → r ∈ map snd (p_imports g) →
    reachable h roots r.

(** The invariant.  [E] are the packages recorded so far. *)
Record linv (o : index_opts) (h0 : pheap) (R : nat → Prop) (E : nat → Prop) (s : lstate) : Prop := LInv {
  li_same : same_graph h0 (ls_heap s);
  li_tab : ∀ k q, ls_tab s !! k = Some q → ∃ g, ls_heap s !! q = Some g ∧ p_path g = k ∧ E q;
  li_cov : ∀ q, E q → covered (ls_heap s) (ls_tab s) q;
  li_imp : ∀ q g r, E q → ls_heap s !! q = Some g → r ∈ map snd (p_imports g) →
             covered (ls_heap s) (ls_tab s) r ∨ r ∈ ls_stack s;
  li_reach : ∀ q, E q → R q;
  li_stack : ∀ q, q ∈ ls_stack s → R q ∧ is_Some (ls_heap s !! q);
  li_mod : ∀ q g, E q → ls_heap s !! q = Some g → is_Some (p_module g) }.

Lemma linv_step o w h0 (R E : nat → Prop) s s' :
  no_std_prefix h0 → closed_heap h0 →
  (∀ p g r, R p → h0 !! p = Some g → r ∈ map snd (p_imports g) → R r) →
  linv o h0 R E s → lstep o w s s' →
  ∃ E' : nat → Prop, (∀ q, E q → E' q) ∧ linv o h0 R E' s' ∧
        (∀ q, q ∈ ls_stack s → covered (ls_heap s') (ls_tab s') q ∨ q ∈ ls_stack s').
Proof.
  intros Hns0 Hcl0 HR [Hsm Htab Hcov Himp Hre Hst Hmod] Hs.
  pose proof (no_std_same _ _ Hsm Hns0) as Hns. pose proof (closed_same _ _ Hsm Hcl0) as Hcl.
  destruct s as [h t st], s' as [h' t' st']. cbn in *.
  pose proof (lstep_same _ _ _ _ _ _ _ _ Hns Hs) as Hsm1.
  pose proof (λ p, covered_mono _ _ _ _ _ _ _ _ p Hns Hs) as Hmono.
  inversion Hs as [? ? p g ? Hp Hsk|? ? p g g' order st0 Hp Hsk Hn Ho]; subst.
  - exists E. split; [done|].
    assert (covered h' t' p) as Hcp.
    { unfold skips, files_of in Hsk. destruct (t' !! p_path g) as [q|] eqn:Eq; [|done].
      destruct (h' !! q) as [gq|] eqn:Ehq; [|done]. cbn in Hsk. apply Nat.leb_le in Hsk.
      exists g, q, gq. done. }
    split.
    + constructor; cbn; try done.
      * intros q gq r Hq Hgq Hr. destruct (Himp _ _ _ Hq Hgq Hr) as [?|H]; [by left|].
        apply elem_of_cons in H as [->|H]; [by left|by right].
      * intros q Hq. apply Hst. by right.
    + intros q Hq. cbn. apply elem_of_cons in Hq as [->|Hq]; [by left|by right].
  - destruct (normalize_keeps _ _ _ _ Hn) as (Hnf & _ & Hi & _ & Hm).
    assert (p_path g' = p_path g) as Hpath.
    { pose proof (Hsm1 p) as H. rewrite Hp, lookup_insert in H. by destruct H. }
    exists (λ q, q = p ∨ E q). split; [tauto|].
    assert (covered (<[p:=g']> h) (<[p_path g':=p]> t) p) as Hcp.
    { exists g', p, g'. rewrite !lookup_insert. done. }
    split.
    + constructor; cbn.
      * by eapply same_graph_trans.
      * intros k q. destruct (decide (p_path g' = k)) as [<-|Hne].
        -- rewrite lookup_insert. intros [= <-]. exists g'. rewrite lookup_insert. auto.
        -- rewrite lookup_insert_ne by done. intros Hq. destruct (Htab _ _ Hq) as (gq & Hgq & Hk & HE).
           destruct (same_graph_lookup _ _ _ _ Hsm1 Hgq) as (gq' & Hgq' & (Hpp & _)).
           exists gq'. split; [done|]. split; [congruence|by right].
      * intros q [->|Hq]; [done|]. by apply Hmono, Hcov.
      * intros q gq r [->|Hq] Hgq Hr.
        -- rewrite lookup_insert in Hgq. injection Hgq as <-. right. apply elem_of_app. left.
           by rewrite Ho.
        -- destruct (same_graph_lookup_r _ _ _ _ Hsm1 Hgq) as (gq0 & Hgq0 & (_ & _ & Hii)).
           rewrite Hii in Hr. destruct (Himp _ _ _ Hq Hgq0 Hr) as [H|H]; [left; by apply Hmono|].
           apply elem_of_cons in H as [->|H]; [by left|right]. apply elem_of_app. by right.
      * intros q [->|Hq]; [|by apply Hre]. apply Hst. left.
      * intros q [Hq|Hq]%elem_of_app.
        -- rewrite Ho in Hq. rewrite Hi in Hq.
           destruct (same_graph_lookup_r _ _ _ _ Hsm Hp) as (g0 & Hg0 & (_ & _ & Hi0)).
           split.
           ++ eapply HR; [|exact Hg0|by rewrite <-Hi0]. apply Hst. left.
           ++ destruct (Hcl _ _ _ Hp Hq) as [gr Hgr].
              destruct (same_graph_lookup _ _ _ _ Hsm1 Hgr) as (gr' & -> & _). eauto.
        -- destruct (Hst q) as [H1 [gq Hgq]]; [by right|]. split; [done|].
           destruct (same_graph_lookup _ _ _ _ Hsm1 Hgq) as (gr' & -> & _). eauto.
      * intros q gq Hq Hgq. destruct (decide (p = q)) as [<-|Hne].
        -- rewrite lookup_insert in Hgq. by injection Hgq as <-.
        -- rewrite lookup_insert_ne in Hgq by done. destruct Hq as [->|Hq]; [done|]. by eapply Hmod.
    + intros q Hq. cbn. apply elem_of_cons in Hq as [->|Hq]; [by left|right].
      apply elem_of_app. by right.
Qed.

Lemma linv_steps o w h0 (R E : nat → Prop) s s' :
  no_std_prefix h0 → closed_heap h0 →
  (∀ p g r, R p → h0 !! p = Some g → r ∈ map snd (p_imports g) → R r) →
  linv o h0 R E s → rtc (lstep o w) s s' →
  ∃ E' : nat → Prop, (∀ q, E q → E' q) ∧ linv o h0 R E' s' ∧
        (∀ q, q ∈ ls_stack s → covered (ls_heap s') (ls_tab s') q ∨ q ∈ ls_stack s') ∧
        (∀ q, covered (ls_heap s) (ls_tab s) q → covered (ls_heap s') (ls_tab s') q).
Proof.
  intros Hns Hcl HR Hinv Hs. revert E Hinv.
  induction Hs as [s|s s1 s' H1 H2 IH]; intros E Hinv.
  - exists E. split; [done|]. split; [done|]. split; [by right|done].
  - assert (∀ q, covered (ls_heap s) (ls_tab s) q → covered (ls_heap s1) (ls_tab s1) q) as Hm1.
    { intros q. destruct s, s1. eapply covered_mono; [|exact H1].
      eapply no_std_same; [|exact Hns]. apply (li_same _ _ _ _ _ Hinv). }
    destruct (linv_step _ _ _ _ _ _ _ Hns Hcl HR Hinv H1) as (E1 & HE1 & Hinv1 & Hst1).
    destruct (IH E1 Hinv1) as (E2 & HE2 & Hinv2 & Hst2 & Hm2).
    exists E2. split; [auto|]. split; [done|]. split.
    + intros q Hq. destruct (Hst1 q Hq) as [H|H]; [left; auto|]. by apply Hst2.
    + auto.
Qed.

(** The whole loading loop. *)
Inductive lfinal (o : index_opts) (h0 : pheap) (R : nat → Prop) (h : pheap) (t pj : ptab) : Prop :=
| LFinal (E : nat → Prop) :
    linv o h0 R E (LState h t []) →
    (∀ k q, pj !! k = Some q → E q ∧ ∃ g, h !! q = Some g ∧ p_path g = k) →
    lfinal o h0 R h t pj.

Lemma load_loop_final o w h0 (R : nat → Prop) h t pj ps h' t' pj' :
  no_std_prefix h0 → closed_heap h0 →
  (∀ p g r, R p → h0 !! p = Some g → r ∈ map snd (p_imports g) → R r) →
  (∀ p, p ∈ ps → R p ∧ is_Some (h0 !! p)) →
  lfinal o h0 R h t pj → load_loop o w h t pj ps h' t' pj' →
  lfinal o h0 R h' t' pj' ∧
  (∀ p, p ∈ ps → covered h' t' p ∧ ∃ g, h0 !! p = Some g ∧ is_Some (pj' !! p_path g)) ∧
  (∀ q, covered h t q → covered h' t' q) ∧
  (∀ k, is_Some (pj !! k) → is_Some (pj' !! k)).
Proof.
  intros Hns Hcl HR Hps Hf Hl. revert Hps Hf.
  induction Hl as [h t pj|h t pj p ps h1 t1 g q h2 t2 pj2 Hadd Hg Hq Hl IH]; intros Hps Hf.
  - split; [done|]. split; [|done]. intros p Hp. by apply elem_of_nil in Hp.
  - destruct Hf as [E Hinv Hpj].
    assert (linv o h0 R E (LState h t [p])) as Hinv0.
    { destruct Hinv as [A1 A2 A3 A4 A5 A6 A7]. constructor; cbn in *; try done.
      - intros ? ? ? H1 H2 H3. destruct (A4 _ _ _ H1 H2 H3) as [?|H]; [by left|by apply elem_of_nil in H].
      - intros q' Hq'. apply elem_of_list_singleton in Hq' as ->.
        destruct (Hps p) as [? [gp Hgp]]; [left|]. split; [done|].
        destruct (same_graph_lookup _ _ _ _ A1 Hgp) as (? & -> & _). eauto. }
    destruct (linv_steps _ _ _ _ _ _ _ Hns Hcl HR Hinv0 Hadd) as (E1 & HE1 & Hinv1 & Hst & Hm).
    cbn in *.
    assert (covered h1 t1 p) as Hcp.
    { destruct (Hst p) as [?|H]; [left|done|by apply elem_of_nil in H]. }
    assert (lfinal o h0 R h1 t1 (<[p_path g:=q]> pj)) as Hf1.
    { apply (LFinal _ _ _ _ _ _ E1 Hinv1). intros k q'.
      destruct (decide (p_path g = k)) as [<-|Hne].
      - rewrite lookup_insert. intros [= <-].
        destruct (li_tab _ _ _ _ _ Hinv1 _ _ Hq) as (gq & Hgq & Hk & HEq). cbn in *. split; [done|]. eauto.
      - rewrite lookup_insert_ne by done. intros Hpq. destruct (Hpj _ _ Hpq) as (HEq & gq & Hgq & Hk).
        split; [auto|]. destruct (same_graph_lookup_r h0 h q' gq (li_same _ _ _ _ _ Hinv) Hgq) as (g0 & Hg0 & Hs0).
        destruct (same_graph_lookup h0 h1 q' g0 (li_same _ _ _ _ _ Hinv1) Hg0) as (g1 & Hg1 & Hs1).
        exists g1. split; [done|]. destruct Hs0 as (? & _), Hs1 as (? & _). congruence. }
    destruct IH as (Hf2 & Hall & Hm2 & Hk2).
    { intros p' Hp'. apply Hps. by right. }
    { done. }
    split; [done|]. split; [|split].
    + intros p' Hp'. apply elem_of_cons in Hp' as [->|Hp']; [|by apply Hall]. split; [auto|].
      destruct (same_graph_lookup_r h0 h1 p g (li_same _ _ _ _ _ Hinv1) Hg) as (g0 & Hg0 & (Hpp & _)).
      exists g0. split; [done|]. apply Hk2. rewrite <-Hpp, lookup_insert. eauto.
    + auto.
    + intros k Hk. apply Hk2. destruct (decide (p_path g = k)) as [<-|Hne].
      * rewrite lookup_insert. eauto.
      * by rewrite lookup_insert_ne.
Qed.
