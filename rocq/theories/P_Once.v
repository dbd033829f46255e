(** Loading the same packages twice gives the same tables and the same normalised packages. *)
From Coq Require Import Ascii String.
From stdpp Require Import prelude strings gmap relations sorting.
From Verif Require Import GoStr Scip GoTypes Ast Packages Symbols Lookup Regex Semver Paths Loader
  P_Symbols P_Sort P_Loader PropModule Index SpecIndex PropLoader
  Output Proto Cli Options Url Fingerprint Impls PropDet Program.
Open Scope string_scope.
Open Scope list_scope.

(** *** Specification *)
(** A package and the packages it imports, directly or not, are one build: they have different paths.
    (Different builds may have different variants of a package.) *)
Definition one_build (h0 : pheap) (roots : list nat) : Prop :=
  ∀ r p q g g', r ∈ roots → reachable h0 [r] p → reachable h0 [r] q → h0 !! p = Some g → h0 !! q = Some g' → p_path g = p_path g' → p = q.

(** *** The packages that were visited *)
Section once.
Context (o : index_opts) (w : world) (bp : nat) (hb : pheap).
Definition finished (h : pheap) (t : ptab) (q : nat) : Prop :=
  covered h t q ∧ (q = bp → h !! q = hb !! q) ∧
    (q ≠ bp → ∃ g g', hb !! q = Some g ∧ normalize_package o w g = Ok g' ∧ h !! q = Some g').
Record oinv (h : pheap) (t : ptab) : Prop := OInv {
  oi_same : same_graph hb h;
  oi_bp : covered h t bp;
  oi_heap : ∀ q, h !! q = hb !! q ∨ finished h t q;
  oi_tab : ∀ k q, t !! k = Some q → finished h t q }.

Lemma covered_skips h t p g : covered h t p → h !! p = Some g → skips h t g = true.
Proof.
  intros (g1 & q & gq & H1 & H2 & H3 & H4) Hp. assert (g1 = g) as -> by congruence.
  unfold skips, files_of. rewrite H2, H3. cbn. by apply Nat.leb_le.
Qed.
Lemma finished_step h t st h' t' st' q :
  no_std_prefix h → lstep o w (LState h t st) (LState h' t' st') → finished h t q → finished h' t' q.
Proof.
  intros Hns Hs [Hc Hf]. split; [by eapply covered_mono|].
  inversion Hs as [? ? p g ? Hp Hsk|? ? p g g' order ? Hp Hsk Hn Ho]; subst; [done|].
  assert (p ≠ q) as Hne.
  { intros <-. by rewrite (covered_skips h t p g Hc Hp) in Hsk. }
  rewrite lookup_insert_ne by done. done.
Qed.
Lemma oinv_step h t st h' t' st' :
  no_std_prefix hb → oinv h t → lstep o w (LState h t st) (LState h' t' st') → oinv h' t'.
Proof.
  intros Hns0 [Hsm Hb Hh Ht] Hs. pose proof (no_std_same _ _ Hsm Hns0) as Hns.
  pose proof (lstep_same _ _ _ _ _ _ _ _ Hns Hs) as Hsm1.
  pose proof (λ q, finished_step _ _ _ _ _ _ q Hns Hs) as Hfin.
  inversion Hs as [? ? p g ? Hp Hsk|? ? p g g' order ? Hp Hsk Hn Ho]; subst; [by constructor|].
  assert (finished (<[p:=g']> h) (<[p_path g':=p]> t) p) as Hfp.
  { split; [exists g', p, g'; rewrite !lookup_insert; done|]. split.
    { intros ->. by rewrite (covered_skips h t bp g Hb Hp) in Hsk. }
    intros Hpb. destruct (Hh p) as [E|[Hc _]].
    - exists g, g'. rewrite <-E, lookup_insert. done.
    - by rewrite (covered_skips h t p g Hc Hp) in Hsk. }
  constructor.
  - by eapply same_graph_trans.
  - by eapply covered_mono.
  - intros q. destruct (decide (p = q)) as [<-|Hne]; [by right|].
    destruct (Hh q) as [E|E]; [left; by rewrite lookup_insert_ne|right; by apply Hfin].
  - intros k q. destruct (decide (p_path g' = k)) as [<-|Hne].
    + rewrite lookup_insert. by intros [= <-].
    + rewrite lookup_insert_ne by done. intros H. eapply Hfin, Ht, H.
Qed.
(** entries are only replaced by larger ones *)
Definition grows (h : pheap) (t : ptab) (h' : pheap) (t' : ptab) : Prop :=
  ∀ k q g, t !! k = Some q → h !! q = Some g →
    ∃ q' g', t' !! k = Some q' ∧ h' !! q' = Some g' ∧ (q' = q ∨ nfiles g < nfiles g').
Lemma steps_ok h t st h' t' st' :
  no_std_prefix hb → oinv h t → rtc (lstep o w) (LState h t st) (LState h' t' st') →
  oinv h' t' ∧ (∀ q, finished h t q → finished h' t' q) ∧ grows h t h' t'.
Proof.
  intros Hns Hi Hs. remember (LState h t st) as s eqn:Es. remember (LState h' t' st') as s' eqn:Es'.
  revert h t st Es Hi. induction Hs as [s|s s1 s2 H1 H2 IH]; intros h t st Es Hi; subst.
  - injection Es as -> -> ->. split; [done|]. split; [done|]. intros k q g H1 H2. exists q, g. eauto.
  - destruct s1 as [h1 t1 st1]. pose proof (no_std_same _ _ (oi_same _ _ Hi) Hns) as Hnsh.
    pose proof (oinv_step _ _ _ _ _ _ Hns Hi H1) as Hi1.
    destruct (IH eq_refl h1 t1 st1 eq_refl Hi1) as (Hi' & Hf' & Hg').
    split; [done|]. split; [intros q Hq; apply Hf'; by eapply finished_step|].
    intros k q g Hk Hg. pose proof (lstep_same _ _ _ _ _ _ _ _ Hnsh H1) as Hsm1.
    assert (∃ q1 g1, t1 !! k = Some q1 ∧ h1 !! q1 = Some g1 ∧ (q1 = q ∨ nfiles g < nfiles g1) ∧ nfiles g <= nfiles g1) as (q1 & g1 & K1 & G1 & C1 & L1).
    { destruct (same_graph_lookup _ _ _ _ Hsm1 Hg) as (gq & Hgq & Hsp). pose proof (same_pkg_nfiles _ _ Hsp) as Hn.
      inversion H1 as [? ? p gp ? Hp Hsk|? ? p gp gp' order ? Hp Hsk Hno Ho]; subst.
      - exists q, g. split; [done|]. split; [done|]. split; [by left|lia].
      - destruct (decide (p_path gp' = k)) as [<-|Hne].
        + exists p, gp'. rewrite !lookup_insert. split; [done|]. split; [done|].
          assert (p_path gp' = p_path gp) as Hpath.
          { specialize (Hsm1 p). rewrite Hp, lookup_insert in Hsm1. by destruct Hsm1. }
          unfold skips, files_of in Hsk. rewrite <-Hpath, Hk, Hg in Hsk. cbn in Hsk. apply Nat.leb_gt in Hsk.
          destruct (normalize_keeps _ _ _ _ Hno) as [Hnf _]. split; [right; lia|lia].
        + exists q, gq. rewrite lookup_insert_ne by done. split; [done|]. split; [done|]. split; [by left|lia]. }
    destruct (Hg' k q1 g1 K1 G1) as (q2 & g2 & K2 & G2 & C2). exists q2, g2. split; [done|]. split; [done|].
    destruct C1 as [->|C1]; destruct C2 as [->|C2]; [by left|right; lia| |right; lia].
    right. destruct (same_graph_lookup_r _ _ _ _ (oi_same _ _ Hi1) G1) as (x & Hx & S1).
    destruct (same_graph_lookup _ _ _ _ (oi_same _ _ Hi') Hx) as (y & Hy & S2).
    assert (y = g2) as -> by congruence. apply same_pkg_nfiles in S1, S2. lia.
Qed.
Lemma loop_ok h t pj ps h' t' pj' :
  no_std_prefix hb → oinv h t → (∀ k q, pj !! k = Some q → finished h t q) → load_loop o w h t pj ps h' t' pj' →
  oinv h' t' ∧ (∀ k q, pj' !! k = Some q → finished h' t' q).
Proof.
  intros Hns Hi Hpj Hl. revert Hi Hpj.
  induction Hl as [h t pj|h t pj p ps h1 t1 g q h2 t2 pj2 Hadd Hg Hq Hl IH]; intros Hi Hpj; [done|].
  destruct (steps_ok _ _ _ _ _ _ Hns Hi Hadd) as (Hi1 & Hf1 & _). apply IH; [done|].
  intros k q'. destruct (decide (p_path g = k)) as [<-|Hne].
  - rewrite lookup_insert. intros [= <-]. by eapply oi_tab.
  - rewrite lookup_insert_ne by done. intros Hp. by eapply Hf1, Hpj.
Qed.

(** *** Walking over the imports of a root *)
Section root.
Context (Hns : no_std_prefix hb) (t0 : ptab) (r : nat).
Context (Hone : ∀ p q g g', reachable hb [r] p → reachable hb [r] q → hb !! p = Some g → hb !! q = Some g' → p_path g = p_path g' → p = q).
Inductive visited : nat → Prop :=
| V_root g : hb !! r = Some g → skips hb t0 g = false → visited r
| V_import v gv x gx : visited v → hb !! v = Some gv → x ∈ map snd (p_imports gv) → hb !! x = Some gx → skips hb t0 gx = false → visited x.
Lemma visited_reachable v : visited v → reachable hb [r] v.
Proof. induction 1 as [g Hg Hs|v gv x gx Hv IH Hgv Hx Hgx Hs]; [apply R_root; left|by eapply R_import]. Qed.
Lemma visited_new v g : visited v → hb !! v = Some g → skips hb t0 g = false.
Proof. intros Hv Hl. destruct Hv as [g' Hg Hs|v' gv x gx Hv Hgv Hx Hgx Hs]; congruence. Qed.
Definition dealt (t : ptab) (x : nat) : Prop := ∃ gx, hb !! x = Some gx ∧ (skips hb t0 gx = true ∨ t !! p_path gx = Some x).
Definition pending (x : nat) : Prop := x = r ∨ ∃ v gv, visited v ∧ hb !! v = Some gv ∧ x ∈ map snd (p_imports gv).
Lemma pending_reachable x : pending x → reachable hb [r] x.
Proof. intros [->|(v & gv & Hv & Hgv & Hx)]; [apply R_root; left|]. eapply R_import; [by apply visited_reachable|done|done]. Qed.
Record walked (t : ptab) (st : list nat) : Prop := Walked {
  wk_sound : ∀ k q, t !! k = Some q → t0 !! k = Some q ∨ (visited q ∧ ∃ g, hb !! q = Some g ∧ p_path g = k);
  wk_dom : ∀ k, is_Some (t0 !! k) → is_Some (t !! k);
  wk_stack : ∀ q, q ∈ st → pending q;
  wk_root : r ∈ st ∨ dealt t r;
  wk_done : ∀ v gv x, t !! p_path gv = Some v → visited v → hb !! v = Some gv → x ∈ map snd (p_imports gv) → x ∈ st ∨ dealt t x }.
Lemma skips_dealt h t p g g0 st : same_graph hb h → walked t st → pending p → hb !! p = Some g0 → h !! p = Some g → skips h t g = true → dealt t p.
Proof.
  intros Hsm W Hp Hg0 Hg Hs. exists g0. split; [done|]. pose proof (Hsm p) as X. rewrite Hg0, Hg in X. pose proof (same_pkg_nfiles _ _ X) as Hn. destruct X as (Hpath & _).
  unfold skips, files_of in Hs. destruct (t !! p_path g) as [q|] eqn:Eq; [|done]. destruct (h !! q) as [gq|] eqn:Gq; [|done]. cbn in Hs.
  destruct (same_graph_lookup_r _ _ _ _ Hsm Gq) as (gq0 & Gq0 & Sq). pose proof (same_pkg_nfiles _ _ Sq) as Hnq.
  destruct (wk_sound _ _ W _ _ Eq) as [E|(Hv & gv & Hgv & Hk)].
  - left. unfold skips, files_of. rewrite <-Hpath, E, Gq0. cbn. by rewrite <-Hn, <-Hnq.
  - right. assert (q = p) as ->; [|by rewrite <-Hpath].
    eapply Hone; [by apply visited_reachable|by apply pending_reachable|done|done|congruence].
Qed.
Lemma not_skips_visited h t p g st : same_graph hb h → walked t st → pending p → h !! p = Some g → skips h t g = false → visited p.
Proof.
  intros Hsm W Hp Hg Hs. destruct (same_graph_lookup_r _ _ _ _ Hsm Hg) as (g0 & Hg0 & X). pose proof (same_pkg_nfiles _ _ X) as Hn. destruct X as (Hpath & _).
  assert (skips hb t0 g0 = false) as Hnew.
  { destruct (skips hb t0 g0) eqn:E; [|done]. unfold skips, files_of in E. destruct (t0 !! p_path g0) as [q0|] eqn:E0; [|done].
    destruct (hb !! q0) as [gq0|] eqn:Gq0; [|done]. cbn in E. destruct (wk_dom _ _ W (p_path g0)) as [q Hq]; [by eexists|].
    unfold skips, files_of in Hs. rewrite Hpath, Hq in Hs. destruct (wk_sound _ _ W _ _ Hq) as [E1|(Hv & gv & Hgv & Hk)].
    - assert (q = q0) as -> by congruence. destruct (same_graph_lookup _ _ _ _ Hsm Gq0) as (gq & Gq & Sq). rewrite Gq in Hs. cbn in Hs.
      pose proof (same_pkg_nfiles _ _ Sq) as Hnq. rewrite Hn, Hnq in Hs. congruence.
    - assert (q = p) as ->. { eapply Hone; [by apply visited_reachable|by apply pending_reachable|done|done|congruence]. }
      rewrite Hg in Hs. cbn in Hs. by rewrite Nat.leb_refl in Hs. }
  destruct Hp as [->|(v & gv & Hv & Hgv & Hx)]; [by eapply V_root|by eapply V_import].
Qed.
Lemma walked_step h t st h' t' st' : same_graph hb h → walked t st → lstep o w (LState h t st) (LState h' t' st') → walked t' st'.
Proof.
  intros Hsm W Hs. inversion Hs as [? ? p g ? Hp Hsk|? ? p g g' order ? Hp Hsk Hn Ho]; subst.
  - destruct (same_graph_lookup_r _ _ _ _ Hsm Hp) as (g0 & Hg0 & _).
    assert (dealt t' p) as Hd. { eapply skips_dealt; try done. apply (wk_stack _ _ W). left. }
    destruct W as [W1 W2 W3 W4 W5]. constructor; [done|done| | |].
    + intros q Hq. apply W3. by right.
    + destruct W4 as [H|H]; [|by right]. apply elem_of_cons in H as [->|H]; [by right|by left].
    + intros v gv x H1 H2 H3 H4. destruct (W5 v gv x H1 H2 H3 H4) as [H|H]; [|by right]. apply elem_of_cons in H as [->|H]; [by right|by left].
  - assert (pending p) as Hpp by (apply (wk_stack _ _ W); left).
    assert (visited p) as Hv by (by eapply not_skips_visited).
    destruct (same_graph_lookup_r _ _ _ _ Hsm Hp) as (g0 & Hg0 & X).
    pose proof (no_std_same _ _ Hsm Hns) as Hns'. pose proof (lstep_same _ _ _ _ _ _ _ _ Hns' Hs) as Hsm1.
    specialize (Hsm1 p). rewrite Hp, lookup_insert in Hsm1. destruct X as (X1 & X2 & X3), Hsm1 as (Y1 & Y2 & Y3).
    assert (p_path g' = p_path g0) as Hpath by congruence. assert (p_imports g' = p_imports g0) as Himp by congruence.
    assert (∀ x, pending x → dealt t x → dealt (<[p_path g':=p]> t) x) as Hkeep.
    { intros x Hx (gx & Hgx & [H|H]); exists gx; (split; [done|]); [by left|right]. rewrite Hpath.
      destruct (decide (p_path g0 = p_path gx)) as [E|E]; [|by rewrite lookup_insert_ne].
      assert (x = p) as ->. { eapply Hone; [by apply pending_reachable|by apply pending_reachable|done|done|done]. }
      by rewrite E, lookup_insert. }
    assert (dealt (<[p_path g':=p]> t) p) as Hdp. { exists g0. split; [done|]. right. by rewrite Hpath, lookup_insert. }
    destruct W as [W1 W2 W3 W4 W5]. constructor.
    + intros k q. destruct (decide (p_path g' = k)) as [<-|Hne].
      * rewrite lookup_insert. intros [= <-]. right. split; [done|]. by exists g0.
      * rewrite lookup_insert_ne by done. apply W1.
    + intros k Hk. destruct (decide (p_path g' = k)) as [<-|Hne]; [rewrite lookup_insert; by eexists|]. rewrite lookup_insert_ne by done. by apply W2.
    + intros q [Hq|Hq]%elem_of_app; [|apply W3; by right]. rewrite Ho, Himp in Hq. right. by exists p, g0.
    + destruct W4 as [H|H]; [apply elem_of_cons in H as [->|H]|].
      * by right.
      * left. apply elem_of_app. by right.
      * right. apply Hkeep; [by left|done].
    + intros v gv x H1 H2 H3 H4. destruct (decide (v = p)) as [->|Hne].
      * assert (gv = g0) as -> by congruence. left. apply elem_of_app. left. by rewrite Ho, Himp.
      * assert (t !! p_path gv = Some v) as H1'.
        { destruct (decide (p_path g' = p_path gv)) as [E|E]; [rewrite E, lookup_insert in H1; congruence|by rewrite lookup_insert_ne in H1]. }
        destruct (W5 v gv x H1' H2 H3 H4) as [H|H].
        -- apply elem_of_cons in H as [->|H]; [by right|left; apply elem_of_app; by right].
        -- right. apply Hkeep; [right; by exists v, gv|done].
Qed.
Lemma walked_init : walked t0 [r].
Proof.
  constructor.
  - intros k q H. by left.
  - done.
  - intros q ->%elem_of_list_singleton. by left.
  - left. left.
  - intros v gv x H1 H2 H3. exfalso. pose proof (visited_new _ _ H2 H3) as H. unfold skips, files_of in H. rewrite H1, H3 in H. cbn in H. by rewrite Nat.leb_refl in H.
Qed.
Lemma walked_steps h t st h' t' st' : oinv h t → walked t st → rtc (lstep o w) (LState h t st) (LState h' t' st') → walked t' st'.
Proof.
  intros Hi Hw Hs. remember (LState h t st) as s eqn:Es. remember (LState h' t' st') as s' eqn:Es'.
  revert h t st Es Hi Hw. induction Hs as [s|s s1 s2 H1 H2 IH]; intros h t st Es Hi Hw; subst.
  - by injection Es as -> -> ->.
  - destruct s1 as [h1 t1 st1]. eapply (IH eq_refl h1 t1 st1 eq_refl); [by eapply oinv_step|]. eapply walked_step; [apply Hi|done|done].
Qed.
Lemma walked_all h h' t' : oinv h t0 → add_imports o w h t0 r h' t' →
  (∀ k q, t' !! k = Some q → t0 !! k = Some q ∨ (visited q ∧ ∃ g, hb !! q = Some g ∧ p_path g = k)) ∧
  (∀ k, is_Some (t0 !! k) → is_Some (t' !! k)) ∧ (∀ v g, visited v → hb !! v = Some g → t' !! p_path g = Some v).
Proof.
  intros Hi Ha. pose proof (walked_steps _ _ _ _ _ _ Hi walked_init Ha) as [W1 W2 W3 W4 W5]. split; [done|]. split; [done|].
  intros v g Hv. revert g. induction Hv as [g Hg Hs|v gv x gx Hv IH Hgv Hx Hgx Hs]; intros g' Hg'.
  - destruct W4 as [H|(gx & Hgx & H)]; [by apply elem_of_nil in H|]. assert (gx = g) as -> by congruence. assert (g' = g) as -> by congruence.
    destruct H as [H|H]; [congruence|done].
  - destruct (W5 v gv x (IH _ Hgv) Hv Hgv Hx) as [H|(gx' & Hgx' & H)]; [by apply elem_of_nil in H|].
    assert (gx' = gx) as -> by congruence. assert (g' = gx) as -> by congruence. destruct H as [H|H]; [congruence|done].
Qed.
Lemma add_once h1 h2 h1' t1' h2' t2' : oinv h1 t0 → oinv h2 t0 → add_imports o w h1 t0 r h1' t1' → add_imports o w h2 t0 r h2' t2' → t1' = t2'.
Proof.
  intros I1 I2 A1 A2. pose proof (walked_all _ _ _ I1 A1) as W1. pose proof (walked_all _ _ _ I2 A2) as W2. clear A1 A2.
  assert (∀ ta tb : ptab,
   ((∀ k q, ta !! k = Some q → t0 !! k = Some q ∨ (visited q ∧ ∃ g, hb !! q = Some g ∧ p_path g = k)) ∧
    (∀ k, is_Some (t0 !! k) → is_Some (ta !! k)) ∧ (∀ v g, visited v → hb !! v = Some g → ta !! p_path g = Some v)) →
   ((∀ k q, tb !! k = Some q → t0 !! k = Some q ∨ (visited q ∧ ∃ g, hb !! q = Some g ∧ p_path g = k)) ∧
    (∀ k, is_Some (t0 !! k) → is_Some (tb !! k)) ∧ (∀ v g, visited v → hb !! v = Some g → tb !! p_path g = Some v)) →
   ∀ (k : string) (q : nat), ta !! k = Some q → tb !! k = Some q) as H.
  { intros ta tb (A1 & A2 & A3) (B1 & B2 & B3) k q Hk. destruct (A1 _ _ Hk) as [H|(Hv & g & Hg & <-)]; [|by apply B3].
    destruct (B2 k) as [q' Hq']; [by eexists|]. destruct (B1 _ _ Hq') as [H'|(Hv & g & Hg & <-)]; [congruence|].
    pose proof (A3 _ _ Hv Hg). congruence. }
  apply map_eq. intros k. destruct (t1' !! k) as [q|] eqn:E; [symmetry; exact (H _ _ W1 W2 _ _ E)|]. destruct (t2' !! k) as [q|] eqn:E'; [|done].
  pose proof (H _ _ W2 W1 _ _ E'). congruence.
Qed.
(** a panic in one order is a panic in the other *)
Lemma panic_once h1 h2 h1' t1' h2' t2' q st g m : oinv h1 t0 → oinv h2 t0 → add_imports o w h1 t0 r h1' t1' →
  rtc (lstep o w) (LState h2 t0 [r]) (LState h2' t2' (q :: st)) → h2' !! q = Some g → skips h2' t2' g = false → normalize_package o w g = Panic m → False.
Proof.
  intros I1 I2 A1 Hs Hg Hsk Hp. pose proof (walked_steps _ _ _ _ _ _ I2 walked_init Hs) as W. destruct (steps_ok _ _ _ _ _ _ Hns I2 Hs) as (I2' & _ & _).
  assert (visited q) as Hv. { eapply not_skips_visited; [apply I2'|done|apply (wk_stack _ _ W); left|done|done]. }
  destruct (steps_ok _ _ _ _ _ _ Hns I1 A1) as (I1' & _ & _). destruct (walked_all _ _ _ I1 A1) as (_ & _ & Hall).
  destruct (oi_heap _ _ I2' q) as [E|[Hc _]].
  2:{ by rewrite (covered_skips _ _ _ _ Hc Hg) in Hsk. }
  rewrite Hg in E. symmetry in E. destruct (oi_tab _ _ I1' _ _ (Hall _ _ Hv E)) as [_ [Hb1 Hb2]]. destruct (decide (q = bp)) as [->|Hne].
  - pose proof (oi_bp _ _ I2') as Hb. by rewrite (covered_skips _ _ _ _ Hb Hg) in Hsk.
  - destruct (Hb2 Hne) as (g1 & g1' & E1 & E2 & _). congruence.
Qed.
End root.

(** *** All the roots *)
Definition one_build_here (roots : list nat) : Prop :=
  ∀ r p q g g', r ∈ roots → reachable hb [r] p → reachable hb [r] q → hb !! p = Some g → hb !! q = Some g' → p_path g = p_path g' → p = q.
Lemma loop_once ps : no_std_prefix hb → one_build_here ps → ∀ h h' t pj h1 t1 pj1 h2 t2 pj2, oinv h t → oinv h' t →
  load_loop o w h t pj ps h1 t1 pj1 → load_loop o w h' t pj ps h2 t2 pj2 → t1 = t2 ∧ pj1 = pj2.
Proof.
  intros Hns. induction ps as [|p ps IH]; intros Hone h h' t pj h1 t1 pj1 h2 t2 pj2 I1 I2 L1 L2.
  { inversion L1; inversion L2; by subst. }
  inversion L1 as [|? ? ? ? ? ha ta ga qa ? ? ? Aa Ga Qa La]; subst. inversion L2 as [|? ? ? ? ? hb' tb gb qb ? ? ? Ab Gb Qb Lb]; subst.
  assert (ta = tb) as <-. { eapply (add_once Hns t p); [intros; eapply (Hone p); try done; left|exact I1|exact I2|exact Aa|exact Ab]. }
  destruct (steps_ok _ _ _ _ _ _ Hns I1 Aa) as (Ia & _). destruct (steps_ok _ _ _ _ _ _ Hns I2 Ab) as (Ib & _).
  assert (p_path ga = p_path gb) as Hpath.
  { pose proof (oi_same _ _ Ia p) as X. pose proof (oi_same _ _ Ib p) as Y. rewrite Ga in X. rewrite Gb in Y. destruct (hb !! p); [|done]. destruct X as (X & _), Y as (Y & _). congruence. }
  rewrite Hpath in *. assert (qa = qb) as -> by congruence.
  eapply IH; [intros ? ? ? ? ? H; eapply Hone; by right|exact Ia|exact Ib|exact La|exact Lb].
Qed.
Lemma loop_no_panic ps m : no_std_prefix hb → one_build_here ps → ∀ h h' t pj h1 t1 pj1, oinv h t → oinv h' t →
  load_loop o w h t pj ps h1 t1 pj1 → load_panics o w h' t ps m → False.
Proof.
  intros Hns. induction ps as [|p ps IH]; intros Hone h h' t pj h1 t1 pj1 I1 I2 L1 L2; [by inversion L2|].
  inversion L1 as [|? ? ? ? ? ha ta ga qa ? ? ? Aa Ga Qa La]; subst.
  inversion L2 as [? ? ? ? h2 t2 q st g ? Hs Hg Hsk Hp|? ? ? ? hb' tb ? Ab Hlat]; subst.
  - eapply (panic_once Hns t p); [intros; eapply (Hone p); try done; left|exact I1|exact I2|exact Aa|exact Hs|exact Hg|exact Hsk|exact Hp].
  - assert (ta = tb) as <-. { eapply (add_once Hns t p); [intros; eapply (Hone p); try done; left|exact I1|exact I2|exact Aa|exact Ab]. }
    destruct (steps_ok _ _ _ _ _ _ Hns I1 Aa) as (Ia & _). destruct (steps_ok _ _ _ _ _ _ Hns I2 Ab) as (Ib & _).
    eapply IH; [intros ? ? ? ? ? H; eapply Hone; by right|exact Ia|exact Ib|exact La|exact Hlat].
Qed.
End once.

(** *** Two loads *)
Section twice.
Context (o : index_opts) (w : world) (bp : nat) (h0 : pheap).
Let o' := with_default_version o.
Let hb := <[bp := builtin_pkg bp o']> h0.
Lemma init_oinv : oinv o' w bp hb hb {[ "builtin" := bp ]}.
Proof.
  assert (Hc : covered hb {[ "builtin" := bp ]} bp).
  { exists (builtin_pkg bp o'), bp, (builtin_pkg bp o'). unfold hb. rewrite lookup_insert. split; [done|].
    split; [apply lookup_singleton|]. done. }
  constructor.
  - apply same_graph_refl.
  - exact Hc.
  - intros q. by left.
  - intros k q H. apply lookup_singleton_Some in H as [<- <-]. split; [done|]. split; [done|]. done.
Qed.
Lemma load_oinv roots h all proj : load_input bp h0 roots → load_packages o w bp h0 roots h all proj →
  oinv o' w bp hb h all ∧ (∀ k q, proj !! k = Some q → finished o' w bp hb h all q).
Proof.
  intros Hin Hl. eapply (loop_ok o' w bp hb hb {[ "builtin" := bp ]} ∅); [by eapply hb_nostd|apply init_oinv| |exact Hl].
  intros k q H. by rewrite lookup_empty in H.
Qed.
Lemma one_build_hb roots : load_input bp h0 roots → one_build h0 roots → one_build_here hb roots.
Proof.
  intros Hin Hone r p q g g' Hr Hp Hq Hg Hg' E.
  assert (∀ x, reachable hb [r] x → reachable h0 [r] x ∧ is_Some (h0 !! x)) as H0.
  { intros x. induction 1 as [x Hx|x gx y Hx [IH1 [gx' IH2]] Hgx Hy].
    - split; [by apply R_root|]. apply elem_of_list_singleton in Hx as ->. by apply (in_roots _ _ _ Hin).
    - assert (gx' = gx) as ->. { apply (hb_lookup o bp h0 roots Hin) in IH2. fold o' hb in IH2. congruence. }
      split; [by eapply R_import|by eapply (in_closed _ _ _ Hin)]. }
  destruct (H0 p Hp) as [Hp0 [gp Gp]], (H0 q Hq) as [Hq0 [gq Gq]].
  pose proof (hb_lookup o bp h0 roots Hin _ _ Gp) as Ep. pose proof (hb_lookup o bp h0 roots Hin _ _ Gq) as Eq. fold o' hb in Ep, Eq.
  eapply (Hone r p q gp gq); try done. congruence.
Qed.
(** the tables are the same *)
Lemma tables_once roots : load_input bp h0 roots → one_build h0 roots →
  ∀ h all proj h' all' proj', load_packages o w bp h0 roots h all proj → load_packages o w bp h0 roots h' all' proj' →
  all = all' ∧ proj = proj'.
Proof.
  intros Hin Hone h all proj h' all' proj' HL HL'.
  eapply (loop_once o' w bp hb roots); [by eapply hb_nostd|by apply one_build_hb|apply init_oinv|apply init_oinv|exact HL|exact HL'].
Qed.
Lemma panics_once roots : load_input bp h0 roots → one_build h0 roots →
  ∀ h all proj m, load_packages o w bp h0 roots h all proj → load_panics o' w hb {[ "builtin" := bp ]} roots m → False.
Proof.
  intros Hin Hone h all proj m HL HL'.
  eapply (loop_no_panic o' w bp hb roots); [by eapply hb_nostd|by apply one_build_hb|apply init_oinv|apply init_oinv|exact HL|exact HL'].
Qed.

(** ... and so are the packages in them, and the paths of the others *)
Lemma heaps_once roots : load_input bp h0 roots →
  ∀ h all proj h' , load_packages o w bp h0 roots h all proj → load_packages o w bp h0 roots h' all proj →
  same_graph h h' ∧ (∀ k q, all !! k = Some q ∨ proj !! k = Some q → h !! q = h' !! q).
Proof.
  intros Hin h all proj h' HL HL'. destruct (load_oinv _ _ _ _ Hin HL) as [I P]. destruct (load_oinv _ _ _ _ Hin HL') as [I' P'].
  split.
  - intros p. pose proof (oi_same _ _ _ _ _ _ I p) as A. pose proof (oi_same _ _ _ _ _ _ I' p) as B.
    destruct (hb !! p), (h !! p), (h' !! p); try done. destruct A as (A1 & A2 & A3), B as (B1 & B2 & B3). repeat split; congruence.
  - intros k q Hq. assert (finished o' w bp hb h all q ∧ finished o' w bp hb h' all q) as [[_ F] [_ F']].
    { destruct Hq as [Hq|Hq]; split; first [by eapply oi_tab|by eapply P|by eapply P']. }
    destruct F as [F1 F2], F' as [F1' F2']. destruct (decide (q = bp)) as [->|Hne].
    + rewrite F1, F1' by done. done.
    + destruct (F2 Hne) as (g & g1 & E1 & E2 & E3), (F2' Hne) as (g' & g1' & E1' & E2' & E3'). congruence.
Qed.
End twice.
