(** C28: the entry of the package builtin after loading. *)
From Coq Require Import Ascii String.
From stdpp Require Import prelude strings gmap relations sorting.
From Verif Require Import GoStr Scip GoTypes Ast Packages Symbols Lookup Regex Semver Paths Loader
  P_Symbols P_Sort P_Loader PropModule Index SpecIndex PropLoader.
Open Scope string_scope.
Open Scope list_scope.

Section Builtin.
  Context (o : index_opts) (w : world) (bp : nat) (b : gpkg) (Hb : p_path b = "builtin").
  (** the entry of the package at bp is untouched and no other package has its path *)
  Record keeps (h : pheap) (t : ptab) : Prop := Keeps {
    k_entry : h !! bp = Some b;
    k_tab : t !! "builtin" = Some bp;
    k_other : ∀ p g, h !! p = Some g → p ≠ bp → p_path g ≠ "builtin" ∧ has_prefix (p_path g) "std/" = false;
    k_imports : ∀ p g, h !! p = Some g → bp ∉ map snd (p_imports g) }.
  Lemma lstep_keeps h t st h' t' st' : lstep o w (LState h t st) (LState h' t' st') → keeps h t → bp ∉ st → keeps h' t' ∧ bp ∉ st'.
  Proof.
    intros Hs [H1 H2 H3 H4] Hst. inversion Hs as [? ? p g ? Hp Hk|? ? p g g' order ? Hp Hk Hn Ho]; subst.
    - split; [done|]. intros Hin. apply Hst. by right.
    - assert (Hne : p ≠ bp) by (intros ->; apply Hst; left).
      assert (Hstr : bp ∉ st0) by (intros Hin; apply Hst; by right).
      destruct (H3 _ _ Hp Hne) as [H5 H6].
      destruct (normalize_keeps o w g g' Hn) as (_ & Hsyn & Himp & Hpath & _).
      assert (p_path g' = p_path g) as Hpath' by (destruct Hpath as [?|Hp']; [done|]; by rewrite trim_prefix_id in Hp').
      split.
      + split.
        * by rewrite lookup_insert_ne.
        * rewrite lookup_insert_ne; [done|]. by rewrite Hpath'.
        * intros q gq Hq Hqne. destruct (decide (p = q)) as [<-|Hpq].
          -- rewrite lookup_insert in Hq. injection Hq as <-. by rewrite Hpath'.
          -- rewrite lookup_insert_ne in Hq by done. by eapply H3.
        * intros q gq Hq. destruct (decide (p = q)) as [<-|Hpq].
          -- rewrite lookup_insert in Hq. injection Hq as <-. rewrite Himp. by eapply H4.
          -- rewrite lookup_insert_ne in Hq by done. by eapply H4.
      + intros [Hin|Hin]%elem_of_app; [|done]. rewrite Ho in Hin. rewrite Himp in Hin. by eapply H4.
  Qed.
  Lemma steps_keeps s s' : rtc (lstep o w) s s' → keeps (ls_heap s) (ls_tab s) → bp ∉ ls_stack s → keeps (ls_heap s') (ls_tab s').
  Proof.
    induction 1 as [s|[h t st] [h1 t1 st1] s2 H1 H2 IH]; intros Hk Hst; [done|].
    destruct (lstep_keeps _ _ _ _ _ _ H1 Hk Hst). by apply IH.
  Qed.
  Lemma loop_keeps h t pj ps h' t' pj' : load_loop o w h t pj ps h' t' pj' → keeps h t → bp ∉ ps → pj !! "builtin" = None →
    keeps h' t' ∧ pj' !! "builtin" = None.
  Proof.
    induction 1 as [|h t pj p ps h1 t1 g q h2 t2 pj2 Ha Hg Hq Hl IH]; intros Hk Hps Hpj; [done|].
    assert (keeps h1 t1) as Hk1.
    { apply (steps_keeps (LState h t [p]) (LState h1 t1 [])); [exact Ha|done|]. cbn. intros ->%elem_of_list_singleton. apply Hps. left. }
    apply IH; [done|intros Hin; apply Hps; by right|].
    destruct (k_other _ _ Hk1 _ _ Hg) as [Hne _]; [intros ->; apply Hps; left|].
    by rewrite lookup_insert_ne.
  Qed.
End Builtin.

(** Unless a package with that path was loaded, the table has an entry builtin of the module
    github.com/golang/go/src/builtin at the Go version, without files; it is not a project package. *)
Theorem C28_builtin_entry o w bp h0 roots h all proj : load_input bp h0 roots →
  (∀ p g, h0 !! p = Some g → p_path g ≠ "builtin") → load_packages o w bp h0 roots h all proj →
  (∃ q g m, all !! "builtin" = Some q ∧ h !! q = Some g ∧ p_path g = "builtin" ∧ p_syntax g = [] ∧ p_module g = Some m ∧
     m_path m = "github.com/golang/go/src/builtin" ∧ m_version m = io_go_version o) ∧
  proj !! "builtin" = None.
Proof.
  intros Hin Hno Hl. destruct (loop_keeps _ _ bp (builtin_pkg bp (with_default_version o)) _ _ _ _ _ _ _ Hl) as [Hk Hp].
  - split.
    + apply lookup_insert.
    + apply lookup_singleton.
    + intros p g Hp Hne. rewrite lookup_insert_ne in Hp by done. split; [by eapply Hno|by eapply (in_nostd _ _ _ Hin)].
    + intros p g Hp. destruct (hb_cases o bp h0 _ _ Hp) as [[-> ->]|Hp']; [by intros ?%elem_of_nil|].
      intros Hb. destruct (in_closed _ _ _ Hin _ _ _ Hp' Hb) as [x Hx]. by rewrite (in_builtin _ _ _ Hin) in Hx.
  - intros Hb. destruct (in_roots _ _ _ Hin _ Hb) as [x Hx]. by rewrite (in_builtin _ _ _ Hin) in Hx.
  - apply lookup_empty.
  - split; [|done]. exists bp, (builtin_pkg bp (with_default_version o)), (bare_module "github.com/golang/go/src/builtin" (io_go_version o)).
    split; [apply (k_tab _ _ _ _ Hk)|]. split; [apply (k_entry _ _ _ _ Hk)|]. done.
Qed.

(** the graph of C26_C27_hypotheses *)
Example C28_builtin_ex : load_input 0 lx_heap [1; 2] ∧ (∀ p g, lx_heap !! p = Some g → p_path g ≠ "builtin") ∧
  ∃ h all proj, load_packages (ex_opts "v1.0.0") ex_world 0 lx_heap [1; 2] h all proj.
Proof.
  destruct C26_C27_hypotheses as (H1 & _ & h & all & proj & H2 & _). split; [done|]. split; [|eauto].
  intros p g Hp. apply heap_cases in Hp.
  repeat (apply elem_of_cons in Hp as [[= -> ->]|Hp]; [discriminate|]). by apply elem_of_nil in Hp.
Qed.
