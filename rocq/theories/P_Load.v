(** The tables of LoadPackages are those of a loaded project. *)
From Coq Require Import Ascii String.
From stdpp Require Import prelude strings gmap relations sorting.
From Verif Require Import GoStr Scip GoTypes Ast Packages Symbols Lookup Regex Semver Paths Loader
  P_Loader Index SpecIndex PropModule PropLoader.
Open Scope string_scope.
Open Scope list_scope.

Lemma normalize_module o w g g' g1 g1' : normalize_package o w g = Ok g1 → normalize_package o w g' = Ok g1' →
  p_module g = p_module g' → p_module g1 = p_module g1'.
Proof.
  unfold normalize_package. intros H1 H2 E. assert (is_standard_lib g = is_standard_lib g') as Es.
  { unfold is_standard_lib. by rewrite E. }
  rewrite Es in H1. destruct (io_driver_set o); [injection H1 as <-; injection H2 as <-; done|].
  destruct (is_standard_lib g' || io_indexing_stdlib o)%bool; cbn [p_module with_path with_module] in *.
  - destruct (resolve_local _ _); [|done]. cbn in *. injection H1 as <-; injection H2 as <-; done.
  - rewrite E in H1. destruct (p_module g'); [|done]. destruct (resolve_local _ _); [|done]. cbn in *. injection H1 as <-; injection H2 as <-; done.
Qed.

Section Once.
  Context (o : index_opts) (w : world) (hb : pheap) (bp : nat).
  Context (Hns : no_std_prefix hb).

  Definition normalised (h : pheap) (q : nat) : Prop :=
    ∃ g0 g, hb !! q = Some g0 ∧ h !! q = Some g ∧ normalize_package o w g0 = Ok g.
  (** each package is normalised at most once *)
  Record once (h : pheap) (t : ptab) : Prop := Once {
    on_same : same_graph hb h;
    on_pkg : ∀ p g0, hb !! p = Some g0 → h !! p = Some g0 ∨ (normalised h p ∧ covered h t p);
    on_tab : ∀ k q, t !! k = Some q → q = bp ∨ normalised h q }.

  Lemma covered_skips h t p g : h !! p = Some g → covered h t p → skips h t g = true.
  Proof.
    intros Hp (g' & q & gq & Hp' & Ht & Hq & Hle). assert (g' = g) as -> by congruence.
    unfold skips, files_of. rewrite Ht, Hq. cbn. by apply Nat.leb_le.
  Qed.

  Lemma once_step h t st h' t' st' : once h t → lstep o w (LState h t st) (LState h' t' st') →
    once h' t' ∧ (∀ q, normalised h q → normalised h' q) ∧ (∀ q, covered h t q → covered h' t' q).
  Proof.
    intros [Hsm Hpk Htab] Hs. pose proof (no_std_same _ _ Hsm Hns) as Hns'.
    pose proof (lstep_same _ _ _ _ _ _ _ _ Hns' Hs) as Hsm1.
    pose proof (λ p, covered_mono _ _ _ _ _ _ _ _ p Hns' Hs) as Hmono.
    inversion Hs as [? ? p g ? Hp Hsk|? ? p g g' order st0 Hp Hsk Hn Ho]; subst.
    - split; [by constructor|]. split; [done|done].
    - destruct (same_graph_lookup_r _ _ _ _ Hsm Hp) as (g0 & Hg0 & _).
      assert (g0 = g) as ->.
      { destruct (Hpk _ _ Hg0) as [H|[_ H]]; [congruence|]. rewrite (covered_skips _ _ _ _ Hp H) in Hsk. done. }
      assert (Hnp : normalised (<[p:=g']> h) p). { exists g, g'. by rewrite lookup_insert. }
      assert (Hnm : ∀ q, normalised h q → normalised (<[p:=g']> h) q).
      { intros q Hq. destruct (decide (p = q)) as [<-|Hne]; [done|]. destruct Hq as (a & b & H1 & H2 & H3).
        exists a, b. by rewrite lookup_insert_ne. }
      split; [|by split; [|intros; apply Hmono]]. constructor.
      + by eapply same_graph_trans.
      + intros q gq Hq. destruct (decide (p = q)) as [<-|Hne].
        * right. split; [done|]. exists g', p, g'. rewrite !lookup_insert. done.
        * rewrite lookup_insert_ne by done. destruct (Hpk _ _ Hq) as [H|[H1 H2]]; [by left|]. right.
          split; [by apply Hnm|by apply Hmono].
      + intros k q. rewrite lookup_insert_Some. intros [[_ <-]|[_ H]]; [by right|].
        destruct (Htab _ _ H) as [->|H']; [by left|right; by apply Hnm].
  Qed.
  Lemma once_steps s s' : once (ls_heap s) (ls_tab s) → rtc (lstep o w) s s' →
    once (ls_heap s') (ls_tab s') ∧ (∀ q, normalised (ls_heap s) q → normalised (ls_heap s') q) ∧
    (∀ q, covered (ls_heap s) (ls_tab s) q → covered (ls_heap s') (ls_tab s') q) ∧
    (∀ q, q ∈ ls_stack s → covered (ls_heap s') (ls_tab s') q ∨ q ∈ ls_stack s').
  Proof.
    intros Ho Hr. revert Ho. induction Hr as [s|s s1 s' H1 H2 IH]; intros Ho.
    { split; [done|]. split; [done|]. split; [done|]. by right. }
    destruct s as [h t st], s1 as [h1 t1 st1]. cbn in *.
    destruct (once_step _ _ _ _ _ _ Ho H1) as (Ho1 & Hn1 & Hc1). destruct (IH Ho1) as (Ho2 & Hn2 & Hc2 & Hs2).
    split; [done|]. split; [auto|]. split; [auto|]. intros q Hq.
    assert (covered h1 t1 q ∨ q ∈ st1) as [H|H]; [|left; by apply Hc2|by apply Hs2].
    inversion H1 as [? ? p g ? Hp Hsk|? ? p g g' order st0 Hp Hsk Hn Hor]; subst.
    - apply elem_of_cons in Hq as [->|Hq]; [left|by right].
      unfold skips, files_of in Hsk. destruct (t1 !! p_path g) as [q'|] eqn:Eq; [|done].
      destruct (h1 !! q') as [gq|] eqn:Ehq; [|done]. cbn in Hsk. apply Nat.leb_le in Hsk.
      exists g, q', gq. done.
    - apply elem_of_cons in Hq as [->|Hq]; [left|right; apply elem_of_app; by right].
      exists g', p, g'. rewrite !lookup_insert. done.
  Qed.

  (** a project entry is normalised, or the builtin entry for a package without files *)
  Definition project_entry (h : pheap) (t : ptab) (k : string) (q : nat) : Prop :=
    ∃ p g gq, hb !! p = Some g ∧ p_path g = k ∧ covered h t p ∧ p ≠ bp ∧ h !! q = Some gq ∧ nfiles g <= nfiles gq ∧
      (q = bp ∨ normalised h q).
  Lemma once_loop h t pj ps h' t' pj' : once h t → (∀ k q, pj !! k = Some q → project_entry h t k q) →
    (∀ p, p ∈ ps → p ≠ bp) →
    load_loop o w h t pj ps h' t' pj' → once h' t' ∧ ∀ k q, pj' !! k = Some q → project_entry h' t' k q.
  Proof.
    intros Ho Hpj Hps Hl. induction Hl as [h t pj|h t pj p ps h1 t1 g q h2 t2 pj2 Hadd Hg Hq Hl IH]; [done|].
    destruct (once_steps (LState h t [p]) (LState h1 t1 []) Ho Hadd) as (Ho1 & Hn1 & Hc1 & Hs1). cbn in *.
    apply IH; [done| |intros; apply Hps; by right].
    assert (Hcp : covered h1 t1 p). { destruct (Hs1 p) as [?|H]; [left|done|by apply elem_of_nil in H]. }
    intros k q'. rewrite lookup_insert_Some. intros [[<- <-]|[_ H]].
    - destruct (same_graph_lookup_r _ _ _ _ (on_same _ _ Ho1) Hg) as (g0 & Hg0 & (Hpp & Hsy & _)).
      pose proof Hcp as (g' & q' & gq & Hp' & Ht & Hq' & Hle). assert (g' = g) as -> by congruence.
      assert (q' = q) as -> by congruence. exists p, g0, gq. split_and!; try done.
      + apply Hps. left.
      + unfold nfiles in *. by rewrite <-Hsy.
      + by eapply on_tab.
    - destruct (Hpj _ _ H) as (p1 & g1 & gq & H1 & H2 & H3 & H4 & H5 & H6 & H7).
      destruct (same_graph_lookup_r _ _ _ _ (on_same _ _ Ho) H5) as (gq0 & Hgq0 & (_ & Hy0 & _)).
      destruct (same_graph_lookup _ _ _ _ (on_same _ _ Ho1) Hgq0) as (gq1 & Hgq1 & (_ & Hy1 & _)).
      exists p1, g1, gq1. split_and!; try done; [by apply Hc1| |].
      + unfold nfiles in *. by rewrite Hy1, <-Hy0.
      + destruct H7 as [->|H7]; [by left|right; by apply Hn1].
  Qed.
End Once.

(** LoadPackages gives a loaded project, when the variants of a package belong to one module
    (as go list guarantees) and a package called "builtin" has files. *)
Theorem load_gives_project o w bp h0 roots h all proj :
  load_input bp h0 roots → load_packages o w bp h0 roots h all proj →
  (∀ p q g g', h0 !! p = Some g → h0 !! q = Some g' → p_path g = p_path g' → p_module g = p_module g') →
  (∀ p g, h0 !! p = Some g → p_path g = "builtin" → p_syntax g ≠ []) →
  loaded_project h all proj.
Proof.
  intros Hin Hl Hmod Hbi. set (o' := with_default_version o) in *. set (hb := <[bp:=builtin_pkg bp o']> h0).
  pose proof (load_final o w bp h0 roots h all proj Hin Hl) as [[E Hinv Hpj] _].
  pose proof (hb_nostd o bp h0 roots Hin) as Hns.
  assert (Hbp : hb !! bp = Some (builtin_pkg bp o')) by apply lookup_insert.
  assert (once o' w hb bp hb {[ "builtin" := bp ]}) as Ho0.
  { constructor; [apply same_graph_refl|by left|]. intros k q [<- <-]%lookup_singleton_Some. by left. }
  destruct (once_loop o' w hb bp Hns hb {[ "builtin" := bp ]} ∅ roots h all proj Ho0) as (Ho & Hpe).
  { intros k q H. by rewrite lookup_empty in H. }
  { intros p Hp ->. destruct (in_roots _ _ _ Hin _ Hp) as [? H]. by rewrite (in_builtin _ _ _ Hin) in H. }
  { exact Hl. }
  assert (Hka : keyed h all).
  { intros k q Hq. destruct (li_tab _ _ _ _ _ Hinv _ _ Hq) as (g & Hg & Hk & HE). cbn in *.
    destruct (li_mod _ _ _ _ _ Hinv _ _ HE Hg) as [m Hm]. eauto. }
  assert (Hkp : keyed h proj).
  { intros k q Hq. destruct (Hpj _ _ Hq) as (HE & g & Hg & Hk).
    destruct (li_mod _ _ _ _ _ Hinv _ _ HE Hg) as [m Hm]. eauto. }
  split; [done|]. split; [done|]. intros k q p Hq Hp.
  destruct (Hpe _ _ Hq) as (p1 & g1 & gq & Hg1 & Hk1 & Hcov & Hne & Hgq & Hle & Hnq).
  assert (gq = p) as -> by congruence.
  pose proof Hcov as (g1' & q' & p' & Hg1' & Hq' & Hp' & Hle').
  destruct (same_graph_lookup _ _ _ _ (on_same _ _ _ _ _ _ Ho) Hg1) as (x & Hx & (Hx1 & Hx2 & _)).
  assert (x = g1') as -> by congruence. rewrite Hx1, Hk1 in Hq'.
  exists q', p'. split; [done|]. split; [done|].
  assert (Hg1h : h0 !! p1 = Some g1). { destruct (hb_cases o bp h0 _ _ Hg1) as [[-> ->]|H]; done. }
  assert (Hnot : ∀ r gr, r = bp → h !! r = Some gr → p_path gr = k → nfiles g1 <= nfiles gr → False).
  { intros r gr -> Hr Hrk Hrl. destruct (same_graph_lookup _ _ _ _ (on_same _ _ _ _ _ _ Ho) Hbp) as (y & Hy & (Hy1 & Hy2 & _)).
    assert (y = gr) as -> by congruence. cbn in Hy1. unfold nfiles in Hrl. rewrite Hy2 in Hrl. cbn in Hrl.
    apply (Hbi _ _ Hg1h); [congruence|]. destruct (p_syntax g1); [done|cbn in Hrl; lia]. }
  destruct (Hkp _ _ Hq) as (p2 & _ & Hp2 & Hpk & _). assert (p2 = p) as -> by congruence.
  destruct (Hka _ _ Hq') as (p3 & _ & Hp3 & Hpk' & _). assert (p3 = p') as -> by congruence.
  destruct Hnq as [->|(a & b & Ha & Hb & Hab)]; [by destruct (Hnot bp p)|].
  destruct (on_tab _ _ _ _ _ _ Ho _ _ Hq') as [->|(a' & b' & Ha' & Hb' & Hab')].
  { exfalso. eapply Hnot; [done|exact Hp'|done|]. unfold nfiles in *. by rewrite <-Hx2. }
  assert (b = p) as -> by congruence. assert (b' = p') as -> by congruence.
  eapply normalize_module; [exact Hab'|exact Hab|].
  destruct (hb_cases o bp h0 _ _ Ha) as [[-> ->]|Ha0].
  { exfalso. eapply (Hnot bp p); [done|exact Hp|done|done]. }
  destruct (hb_cases o bp h0 _ _ Ha') as [[-> ->]|Ha0'].
  { exfalso. eapply (Hnot bp p'); [done|exact Hp'|done|]. unfold nfiles in *. by rewrite <-Hx2. }
  eapply Hmod; [exact Ha0'|exact Ha0|].
  assert (∀ r x y, hb !! r = Some x → h !! r = Some y → p_path x = p_path y) as Hpp.
  { intros r x y Hx' Hy. destruct (same_graph_lookup _ _ _ _ (on_same _ _ _ _ _ _ Ho) Hx') as (z & Hz & (Hz1 & _)).
    assert (z = y) as -> by congruence. done. }
  rewrite (Hpp _ _ _ Ha Hb), (Hpp _ _ _ Ha' Hb'). congruence.
Qed.
