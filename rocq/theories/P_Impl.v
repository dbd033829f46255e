(** The whole search: the relationships in the tables and the external symbols. *)
From Coq Require Import Ascii String.
From stdpp Require Import prelude strings gmap sorting.
From Verif Require Import GoStr Scip GoTypes Ast Packages Symbols Document Lookup Pass1 Pass2 Paths Loader Index SpecSymbol SpecDecl SpecLookup SpecOcc SpecIndex
  P_Symbols P_Lookup Quote Fingerprint SpecTypes Impls P_Rel SpecImpl P_Filter P_Mem P_Extract.
Open Scope string_scope.
Open Scope list_scope.

Lemma relationships_unique l l' S S' : relationships_are l S → relationships_are l' S' → (∀ s, S s ↔ S' s) → l = l'.
Proof.
  intros (A1 & A2 & A3) (B1 & B2 & B3) HS.
  assert (E : ∀ r, r ∈ l ↔ r ∈ l') by (intros r; by rewrite A3, B3, HS).
  apply canonical_unique; [done..|]. intros s.
  assert (G : ∀ k k', NoDup (map r_symbol k) → NoDup (map r_symbol k') → (∀ r, r ∈ k ↔ r ∈ k') → ∀ r, rel_for k s = Some r → rel_for k' s = Some r).
  { intros k k' N N' Hk r Hr. 
    assert (Hs : s ∈ map r_symbol k) by (apply rel_for_in; by eexists). apply elem_of_list_fmap in Hs as (x & -> & Hx).
    rewrite (rel_for_nodup k x) in Hr by done. injection Hr as <-. apply Hk in Hx. by apply rel_for_nodup. }
  destruct (rel_for l s) as [r|] eqn:E1.
  - symmetry. by apply (G l l').
  - destruct (rel_for l' s) as [r|] eqn:E2; [|done]. pose proof (G l' l B2 A2 (λ r', iff_sym (E r')) r E2). congruence.
Qed.

Section Impl.
  Context (env : tenv) (u : unicode) (crc : string → N) (mset : ty → list obj) (constraint_ok : ty → ty → bool) (objs : nat → option obj).
  Context (Hms : method_sets env mset objs).
  Context (package_level : gpkg → obj → bool) (scope_objects : gpkg → list obj) (root version : string) (h : pheap) (g : global).
  Notation intuitive := (intuitive_method_set env mset).
  Notation caches_ok := (caches_ok env objs g root version).
  Notation resolves := (resolves env root version g).
  Notation candidate := (candidate env mset package_level scope_objects root version h g).
  Notation def_of := (def_of env u crc mset root version g).
  Notation defs_for := (defs_for env u crc mset root version g).
  Notation found := (found env u crc mset objs root version g).
  Notation passes := (passes env mset constraint_ok).
  Notation contributes := (contributes env mset constraint_ok).
  Notation distinct_symbols := (distinct_symbols env mset package_level scope_objects root version h g).
  Notation related := (related env mset constraint_ok package_level scope_objects root version h g).
  Notation expected := (expected env mset constraint_ok package_level scope_objects root version h g).
  Notation expected_of := (expected_of env mset constraint_ok package_level scope_objects root version h g).

  Lemma candidate_named pkgs c : candidate pkgs c → named (c_type c).
  Proof. intros []; eexists _, _; done. Qed.

  (** a map of definitions against a set of packages *)
  Definition defs_of (pkgs : ptab) (which : bool) (base : nat) (new : list syminfo) (D : defs) (R : string → nat * nat) : Prop :=
    (∀ s d, D !! s = Some d → ∃ c, candidate pkgs c ∧ c_symbol c = s ∧ is_interface env (c_type c) = which ∧
       base ≤ (R s).1 ∧ def_of new (R s).1 (R s).2 c d) ∧
    (∀ c, candidate pkgs c → is_interface env (c_type c) = which → ∃ d, D !! c_symbol c = Some d ∧ def_of new (R (c_symbol c)).1 (R (c_symbol c)).2 c d) ∧
    (∀ s s' d d', D !! s = Some d → D !! s' = Some d' → s ≠ s' → (R s).2 ≤ (R s').1 ∨ (R s').2 ≤ (R s).1).
  Lemma defs_for_of pkgs C which base new D R : distinct_symbols pkgs → (∀ c, c ∈ C ↔ candidate pkgs c) → defs_for C which base new D R → defs_of pkgs which base new D R.
  Proof.
    intros Hd HC (H1 & H2 & H3). split; [|split; [|done]].
    - intros s d H. destruct (H1 s d H) as (c & Hc & ?). apply HC in Hc. by exists c.
    - intros c Hc Hw. destruct (H2 c) as [d Hd']; [by apply HC|done|]. exists d. split; [done|].
      destruct (H1 _ _ Hd') as (c' & Hc' & Hs & _ & _ & Hdef). apply HC in Hc'. assert (c' = c) as -> by (by apply Hd). done.
  Qed.
  Lemma defs_of_grow pkgs which base new ext D R : defs_of pkgs which base new D R → defs_of pkgs which base (new ++ ext) D R.
  Proof.
    intros (H1 & H2 & H3). split; [|split; [|done]].
    - intros s d H. destruct (H1 s d H) as (c & ? & ? & ? & ? & ?). exists c. do 4 (split; [done|]). by apply def_of_grow.
    - intros c Hc Hw. destruct (H2 c Hc Hw) as (d & ? & ?). exists d. split; [done|]. by apply def_of_grow.
  Qed.

  (** cells of the definition of a candidate *)
  Lemma def_sym_tab new lo hi c d id pos : def_of new lo hi c d → d_sym d = CTab id pos ↔ p_info (c_pkg c) ≠ None ∧ p_path (c_pkg c) = id ∧ o_pos (c_obj c) = pos.
  Proof.
    intros [H _ _ _ _]. destruct (p_info (c_pkg c)) as [ti|].
    - rewrite H. split; [by intros [= -> ->]|]. by intros (_ & -> & ->).
    - destruct H as (-> & _). split; [done|]. by intros [? _].
  Qed.
  Lemma def_method_tab new lo hi c d id pos : named (c_type c) → def_of new lo hi c d →
    ∀ name, (∃ s, d_methods d !! name = Some (CTab id pos, s)) ↔
      ∃ m, has_method env mset (c_type c) m ∧ obj_Id m = name ∧ (∃ info, resolves m (Found info)) ∧ entry_of g m id ∧ o_pos m = pos.
  Proof.
    intros Hnt [_ _ _ [Ha Hb] _] name. split.
    - intros [s H]. destruct (Ha _ _ _ H) as (m & Hm & Hn & info & Hr & _ & He). exists m. split; [by apply (intuitive_has env mset objs Hms _ _ Hnt)|]. split; [done|].
      split; [by exists info|]. destruct He as [He|(_ & n & ? & _)]; [|done]. apply object_cell_entry in He as (id' & [= -> ->] & He). done.
    - intros (m & Hm & Hn & [info Hr] & He & Hp). apply (intuitive_has env mset objs Hms _ _ Hnt) in Hm. destruct (Hb m info Hm Hr) as [[cl s] E]. rewrite Hn in E.
      destruct (Ha _ _ _ E) as (m' & Hm' & Hn' & info' & Hr' & Hs' & He').
      assert (m' = m) as -> by (eapply (intuitive_same_id env mset objs Hms); [done|done|congruence]).
      assert (Hc : object_cell g m = Some (CTab id pos)) by (apply object_cell_entry; exists id; by rewrite Hp).
      exists s. rewrite E. destruct He' as [He'|[He' _]]; congruence.
  Qed.
  Lemma def_method_symbol new lo hi c d : named (c_type c) → def_of new lo hi c d →
    ∀ name s, (∃ cl, d_methods d !! name = Some (cl, s)) ↔
      ∃ m info, has_method env mset (c_type c) m ∧ obj_Id m = name ∧ resolves m (Found info) ∧ i_symbol info = s.
  Proof.
    intros Hnt [_ _ _ [Ha Hb] _] name s. split.
    - intros [cl H]. destruct (Ha _ _ _ H) as (m & Hm & Hn & info & Hr & Hs & _). exists m, info. split; [by apply (intuitive_has env mset objs Hms _ _ Hnt)|]. done.
    - intros (m & info & Hm & Hn & Hr & Hs). apply (intuitive_has env mset objs Hms _ _ Hnt) in Hm. destruct (Hb m info Hm Hr) as [[cl s'] E]. rewrite Hn in E.
      destruct (Ha _ _ _ E) as (m' & Hm' & Hn' & info' & Hr' & Hs' & _).
      assert (m' = m) as -> by (eapply (intuitive_same_id env mset objs Hms); [done|done|congruence]).
      pose proof (resolves_fun env objs root version g m _ _ (intuitive_object env mset objs Hms _ _ Hm) Hr Hr') as [= <-].
      exists cl. rewrite E. congruence.
  Qed.

  (** what a pass adds to an entry of a table *)
  Definition pair_expected (t i : cand) (id : string) (pos : Z) (s : string) : Prop :=
    (p_info (c_pkg t) ≠ None ∧ p_path (c_pkg t) = id ∧ o_pos (c_obj t) = pos ∧ c_symbol i = s) ∨
    (∃ m m' info, has_method env mset (c_type t) m ∧ has_method env mset (c_type i) m' ∧ obj_Id m = obj_Id m' ∧
      (∃ info, resolves m (Found info)) ∧ entry_of g m id ∧ o_pos m = pos ∧ resolves m' (Found info) ∧ i_symbol info = s).
  Definition matched (t i : cand) : Prop :=
    satisfies env mset constraint_ok (c_type t) (c_type i) ∧ (sealed env mset (c_type i) → p_path (c_pkg t) = p_path (c_pkg i)).
  Lemma contributes_tab P Q bt bi new new' T I RT RI id pos s : defs_of P false bt new T RT → defs_of Q true bi new' I RI →
    contributes T I (CTab id pos) s ↔ ∃ t i, candidate P t ∧ candidate Q i ∧ is_interface env (c_type t) = false ∧
      is_interface env (c_type i) = true ∧ matched t i ∧ pair_expected t i id pos s.
  Proof.
    intros (T1 & T2 & _) (I1 & I2 & _). split.
    - intros (kt & t & ki & i & Ht & Hi & Hp & Hc). destruct (T1 kt t Ht) as (ct & Cct & St & Wt & _ & Dt). destruct (I1 ki i Hi) as (ci & Cci & Si & Wi & _ & Di).
      exists ct, ci. do 4 (split; [done|]). split.
      + eapply (passes_spec env u crc mset constraint_ok objs Hms); [apply (do_describes _ _ _ _ _ _ _ _ _ _ _ _ Dt)|apply (do_describes _ _ _ _ _ _ _ _ _ _ _ _ Di)|by eapply candidate_named|done|by eapply candidate_named|done].
      + destruct Hc as [[Hc ->]|(name & s' & c' & Hm & Hm')].
        * left. destruct (proj1 (def_sym_tab _ _ _ _ _ _ _ Dt) (eq_sym Hc)) as (X1 & X2 & X3). split; [done|]. split; [done|]. split; [done|]. symmetry. apply (do_symbol _ _ _ _ _ _ _ _ _ _ _ _ Di).
        * right. destruct (proj1 (def_method_tab _ _ _ _ _ id pos (candidate_named _ _ Cct) Dt name)) as (m & M1 & M2 & M3 & M4 & M5); [by exists s'|].
          destruct (proj1 (def_method_symbol _ _ _ _ _ (candidate_named _ _ Cci) Di name s)) as (m' & info & N1 & N2 & N3 & N4); [by exists c'|].
          exists m, m', info. split; [done|]. split; [done|]. split; [congruence|]. done.
    - intros (ct & ci & Cct & Cci & Wt & Wi & Hmatch & Hpe). destruct (T2 ct Cct Wt) as (t & Ht & Dt). destruct (I2 ci Cci Wi) as (i & Hi & Di).
      exists (c_symbol ct), t, (c_symbol ci), i. do 2 (split; [done|]). split.
      + eapply (passes_spec env u crc mset constraint_ok objs Hms); [apply (do_describes _ _ _ _ _ _ _ _ _ _ _ _ Dt)|apply (do_describes _ _ _ _ _ _ _ _ _ _ _ _ Di)|by eapply candidate_named|done|by eapply candidate_named|done].
      + destruct Hpe as [(X1 & X2 & X3 & X4)|(m & m' & info & M1 & N1 & E & M3 & M4 & M5 & N3 & N4)].
        * left. split; [symmetry; by apply (def_sym_tab _ _ _ _ _ _ _ Dt)|]. rewrite <- X4. symmetry. apply (do_symbol _ _ _ _ _ _ _ _ _ _ _ _ Di).
        * right. destruct (proj2 (def_method_tab _ _ _ _ _ id pos (candidate_named _ _ Cct) Dt (obj_Id m))) as [s' Hs']; [by exists m|].
          destruct (proj2 (def_method_symbol _ _ _ _ _ (candidate_named _ _ Cci) Di (obj_Id m) s)) as [c' Hc']; [by exists m', info|]. by exists (obj_Id m), s', c'.
  Qed.
  Lemma expected_pairs proj deps id pos s : expected proj deps id pos s ↔ ∃ t i, related proj deps t i ∧ pair_expected t i id pos s.
  Proof.
    split.
    - intros [t i H1 H2 H3 H4 H5|t i m m' info H1 H2 H3 H4 H5 H6 H7 H8 H9]; exists t, i; (split; [done|]); [by left|right]. by exists m, m', info.
    - intros (t & i & H & [(H1 & H2 & H3 & H4)|(m & m' & info & H1 & H2 & H3 & H4 & H5 & H6 & H7 & H8)]); [by eapply exp_type|by eapply exp_method].
  Qed.

  (** what a pass adds to the new entry of a type of a dependency *)
  Lemma contributes_new P Q bt bi new new' T I RT RI c s : defs_of P false bt new T RT → defs_of Q true bi new' I RI →
    candidate P c → is_interface env (c_type c) = false → p_info (c_pkg c) = None → bi = bi →
    contributes T I (CNew (RT (c_symbol c)).1) s ↔ ∃ i, candidate Q i ∧ is_interface env (c_type i) = true ∧ matched c i ∧ c_symbol i = s.
  Proof.
    intros HT HI Cc Wc Nc _. pose proof HT as (T1 & T2 & T3). pose proof HI as (I1 & I2 & _).
    destruct (T2 c Cc Wc) as (d & Hd & Dd). pose proof (do_sym _ _ _ _ _ _ _ _ _ _ _ _ Dd) as Hsym. rewrite Nc in Hsym. destruct Hsym as (Hsym & Hlt & _).
    pose proof (do_methods _ _ _ _ _ _ _ _ _ _ _ _ Dd) as [Dm _]. rewrite Nc in Dm.
    split.
    - intros (kt & t & ki & i & Ht & Hi & Hp & Hc). destruct (T1 kt t Ht) as (ct & Cct & St & Wt & _ & Dt). destruct (I1 ki i Hi) as (ci & Cci & Si & Wi & _ & Di).
      assert (Hcell : d_sym t = CNew (RT (c_symbol c)).1 ∨ ∃ name s', d_methods t !! name = Some (CNew (RT (c_symbol c)).1, s')).
      { destruct Hc as [[Hc _]|(name & s' & c' & Hm & _)]; [by left|right; eauto]. }
      assert (kt = c_symbol c) as ->.
      { destruct (decide (kt = c_symbol c)) as [->|Hne]; [done|]. exfalso.
        assert (Hin : (RT kt).1 ≤ (RT (c_symbol c)).1 < (RT kt).2).
        { destruct Hcell as [Hx|(name & s' & Hx)].
          - pose proof (do_sym _ _ _ _ _ _ _ _ _ _ _ _ Dt) as Hs. rewrite Hx in Hs. destruct (p_info (c_pkg ct)); [done|]. destruct Hs as ([= ->] & Hs & _). lia.
          - pose proof (do_methods _ _ _ _ _ _ _ _ _ _ _ _ Dt) as [Ha _]. destruct (Ha _ _ _ Hx) as (m & _ & _ & info & _ & _ & [He|(_ & n & [= <-] & Hn)]).
            + apply object_cell_entry in He as (id & ? & _). done.
            + destruct (p_info (c_pkg ct)); lia. }
        destruct (T3 kt (c_symbol c) t d Ht Hd Hne) as [?|?]; lia. }
      assert (t = d) as -> by congruence.
      assert (Hnm : ∀ name s', d_methods d !! name ≠ Some (CNew (RT (c_symbol c)).1, s')).
      { intros name s' Hx. destruct (Dm _ _ _ Hx) as (m & _ & _ & info & _ & _ & [He|(_ & n & [= <-] & Hn)]); [|lia]. apply object_cell_entry in He as (id & ? & _). done. }
      destruct Hc as [[_ ->]|(name & s' & c' & Hm & _)]; [|by apply Hnm in Hm].
      exists ci. split; [done|]. split; [done|]. split; [|symmetry; apply (do_symbol _ _ _ _ _ _ _ _ _ _ _ _ Di)].
      eapply (passes_spec env u crc mset constraint_ok objs Hms); [apply (do_describes _ _ _ _ _ _ _ _ _ _ _ _ Dd)|apply (do_describes _ _ _ _ _ _ _ _ _ _ _ _ Di)|by eapply candidate_named|done|by eapply candidate_named|done].
    - intros (ci & Cci & Wi & Hmatch & Es). destruct (I2 ci Cci Wi) as (i & Hi & Di). exists (c_symbol c), d, (c_symbol ci), i. do 2 (split; [done|]). split.
      + eapply (passes_spec env u crc mset constraint_ok objs Hms); [apply (do_describes _ _ _ _ _ _ _ _ _ _ _ _ Dd)|apply (do_describes _ _ _ _ _ _ _ _ _ _ _ _ Di)|by eapply candidate_named|done|by eapply candidate_named|done].
      + left. split; [done|]. rewrite <- Es. symmetry. apply (do_symbol _ _ _ _ _ _ _ _ _ _ _ _ Di).
  Qed.
  (** new cells beyond those of a map are not written *)
  Lemma contributes_other P bt new T I RT n s : defs_of P false bt new T RT → length new ≤ n → ¬ contributes T I (CNew n) s.
  Proof.
    intros (T1 & _ & _) Hn (kt & t & ki & i & Ht & Hi & Hp & Hc). destruct (T1 kt t Ht) as (ct & Cct & St & Wt & _ & Dt).
    pose proof (do_hi _ _ _ _ _ _ _ _ _ _ _ _ Dt) as Hhi. destruct Hc as [[Hc _]|(name & s' & c' & Hm & _)].
    - pose proof (do_sym _ _ _ _ _ _ _ _ _ _ _ _ Dt) as Hs. rewrite <- Hc in Hs. destruct (p_info (c_pkg ct)); [done|]. destruct Hs as ([= ->] & Hs & _). lia.
    - pose proof (do_methods _ _ _ _ _ _ _ _ _ _ _ _ Dt) as [Ha _]. destruct (Ha _ _ _ Hm) as (m & _ & _ & info & _ & _ & [He|(_ & n' & [= <-] & Hn')]); [|lia].
      apply object_cell_entry in He as (id & ? & _). done.
  Qed.

  Lemma remote_dependencies all proj : dependencies all proj (remote_packages all proj).
  Proof. intros key q. unfold remote_packages. rewrite map_filter_lookup_Some. done. Qed.

  (** the memory after operations *)
  Lemma same_tables_ops new ops : same_tables g (mm_g (foldl run_op (Mem g new) ops)).
  Proof.
    destruct (run_ops_shape ops (Mem g new)) as (S1 & _ & S3). cbn [mm_g] in *. split; [done|]. intros id. specialize (S3 id).
    destruct (g_symbols g !! id) as [[p t]|] eqn:E1, (g_symbols (mm_g (foldl run_op (Mem g new) ops)) !! id) as [[p' t']|] eqn:E2; try done.
    split; [done|]. intros pos. pose proof (run_ops_info ops (Mem g new) (CTab id pos)) as Hi. cbn [cell_info mm_g] in Hi. unfold get_info_by_path, pget in Hi.
    rewrite E1, E2 in Hi. rewrite Hi. destruct (t !! pos); done.
  Qed.
  Lemma fresh_relationships c ops S : closed ops → (∀ s, OAdd c s ∈ ops ↔ S s) → relationships_are (foldl (apply_op c) [] ops) S.
  Proof.
    intros Hc HS. rewrite closed_rels by done. split; [apply canonicalize_sorted|]. split; [apply canonicalize_nodup|]. intros r.
    rewrite canonical_symbols, elem_of_adds, HS. done.
  Qed.

  (** everything about a run *)
  Definition ext_spec (proj deps : ptab) (exts : list syminfo) : Prop :=
    (∀ info, info ∈ exts → ∃ c b, candidate deps c ∧ is_interface env (c_type c) = false ∧ i_symbol info = c_symbol c ∧ base_info g c b ∧ same_info b info ∧
       (∃ s, expected_of proj deps c s) ∧ relationships_are (i_relationships info) (expected_of proj deps c)) ∧
    (∀ c, candidate deps c → is_interface env (c_type c) = false → (∃ s, expected_of proj deps c s) → ∃ info, info ∈ exts ∧ i_symbol info = c_symbol c) ∧
    NoDup (map i_symbol exts).
  Notation run o proj all k := (add_implementation_relationships env u crc mset constraint_ok package_level scope_objects o h proj all g k).
  Theorem search_ok o proj all k : search_orders o → defs_order h o → keyed h all → keyed h proj →
    (∀ key q p, proj !! key = Some q ∨ all !! key = Some q ∧ proj !! key = None → h !! q = Some p → exports_ok objs scope_objects g p) →
    (∀ id pos i, recorded g id pos i → i_relationships i = []) → caches_ok k →
    let deps := remote_packages all proj in
    match run o proj all k with
    | Panic _ => ∃ c, (candidate proj c ∨ candidate deps c) ∧ ¬ encodable env u mset (c_type c)
    | Ok (g', k', exts, (n, total)) =>
        same_tables g g' ∧ caches_ok k' ∧ n = total ∧
        (distinct_symbols proj → distinct_symbols deps →
          (∀ id pos i, recorded g' id pos i → relationships_are (i_relationships i) (expected proj deps id pos)) ∧
          ext_spec proj deps exts)
    end.
  Proof.
    intros Ho Hdo Hka Hkp Hx Hrel0 Hk deps. unfold add_implementation_relationships.
    pose proof (extract_ok env u crc mset objs Hms package_level scope_objects root version h g o proj [] k Hdo (oo_packages o Ho)) as HL.
    match type of HL with ?A → _ => assert (HA : A) by (intros key q p H1 H2; eapply Hx; [by left|done]) end. specialize (HL HA Hk). clear HA.
    destruct (extract env u crc mset package_level scope_objects o h g proj [] k) as [l|]; cbn [res_bind].
    2:{ destruct HL as (c & Hc & He). exists c. auto. }
    destruct HL as (CL & (HkL & HbL & [RLi HLi] & [RLc HLc]) & HCL).
    pose proof (extract_ok env u crc mset objs Hms package_level scope_objects root version h g o deps (x_new l) (x_k l) Hdo (oo_packages o Ho)) as HR.
    match type of HR with ?A → _ => assert (HA : A) by (intros key q p H1 H2; apply remote_dependencies in H1; eapply Hx; [by right|done]) end. specialize (HR HA HkL). clear HA.
    fold deps. destruct (extract env u crc mset package_level scope_objects o h g deps (x_new l) (x_k l)) as [r|]; cbn [res_bind].
    2:{ destruct HR as (c & Hc & He). exists c. auto. }
    destruct HR as (CR & (HkR & HbR & [RRi HRi] & [RRc HRc]) & HCR).
    rewrite !find_ops. cbn zeta. rewrite <- !foldl_app.
    set (ops := pass_ops env mset constraint_ok o 0 (x_concretes l) (x_ifaces l) ++ pass_ops env mset constraint_ok o 1 (x_concretes l) (x_ifaces r) ++
                pass_ops env mset constraint_ok o 2 (x_concretes r) (x_ifaces l)).
    replace ((pass_ops env mset constraint_ok o 0 (x_concretes l) (x_ifaces l) ++ pass_ops env mset constraint_ok o 1 (x_concretes l) (x_ifaces r)) ++
                pass_ops env mset constraint_ok o 2 (x_concretes r) (x_ifaces l)) with ops by (unfold ops; by rewrite <- List.app_assoc).
    set (m := foldl run_op (Mem g (x_new r)) ops).
    split; [apply same_tables_ops|]. split; [done|]. split.
    { assert (Hlen : ∀ n (d : defs), length (or_types o n d) = size d).
      { intros n d. change (size d) with (length (map_to_list d)). apply Permutation_length. apply (oo_types o Ho). }
      rewrite !Hlen. lia. }
    intros DP DD.
    assert (Hclosed : closed ops) by (unfold ops; apply closed_app; [by apply pass_closed|apply closed_app; by apply pass_closed]).
    assert (Hadds : ∀ c s, OAdd c s ∈ ops ↔ contributes (x_concretes l) (x_ifaces l) c s ∨ contributes (x_concretes l) (x_ifaces r) c s ∨ contributes (x_concretes r) (x_ifaces l) c s).
    { intros c s. unfold ops. rewrite !elem_of_app, !pass_adds by done. done. }
    (* prefix of new cells *)
    pose proof (defs_for_of proj CL true 0 _ _ _ DP HCL HLi) as DLi. pose proof (defs_for_of proj CL false 0 _ _ _ DP HCL HLc) as DLc.
    pose proof (defs_for_of deps CR true _ _ _ _ DD HCR HRi) as DRi. pose proof (defs_for_of deps CR false _ _ _ _ DD HCR HRc) as DRc.
    assert (Hexp : ∀ id pos s, OAdd (CTab id pos) s ∈ ops ↔ expected proj deps id pos s).
    { intros id pos s. rewrite Hadds, (contributes_tab _ _ _ _ _ _ _ _ _ _ id pos s DLc DLi), (contributes_tab _ _ _ _ _ _ _ _ _ _ id pos s DLc DRi), (contributes_tab _ _ _ _ _ _ _ _ _ _ id pos s DRc DLi), expected_pairs.
      split.
      - intros [(t & i & H1 & H2 & H3 & H4 & H5 & H6)|[(t & i & H1 & H2 & H3 & H4 & H5 & H6)|(t & i & H1 & H2 & H3 & H4 & H5 & H6)]]; exists t, i; (split; [|done]); (split; [|done]).
        + apply compare_local; auto.
        + apply compare_local; auto.
        + by apply compare_dep.
      - intros (t & i & [[H1 [H2|H2] H3 H4|H1 H2 H3 H4] H5] & H6); [left|right; left|right; right]; exists t, i; auto 10. }
    split.
    - intros id pos i Hi. apply get_info_recorded in Hi. pose proof (run_ops_info ops (Mem g (x_new r)) (CTab id pos)) as E. fold m in E. cbn [cell_info mm_g] in E.
      rewrite E in Hi. destruct (get_info_by_path g id pos) as [i0|] eqn:E0; [|done]. injection Hi as <-. apply get_info_recorded in E0. cbn. rewrite (Hrel0 _ _ _ E0).
      apply fresh_relationships; [done|]. intros s. apply Hexp.
    - (* one external symbol *)
      assert (Hcell : ∀ c, candidate deps c → is_interface env (c_type c) = false → ∃ d b info, x_concretes r !! c_symbol c = Some d ∧
        base_info g c b ∧ cell_info m (d_sym d) = Some info ∧ same_info b info ∧ relationships_are (i_relationships info) (expected_of proj deps c) ∧ i_symbol info = c_symbol c).
      { intros c Cc Wc. pose proof DRc as (_ & T2 & _). destruct (T2 c Cc Wc) as (d & Hd & Dd). exists d.
        pose proof (do_sym _ _ _ _ _ _ _ _ _ _ _ _ Dd) as Hs. unfold base_info, SpecImpl.expected_of. destruct (p_info (c_pkg c)) as [ti|] eqn:Ep.
        - assert (Hb : ∃ b, recorded g (p_path (c_pkg c)) (o_pos (c_obj c)) b ∧ i_symbol b = c_symbol c).
          { inversion Cc as [key q p ti' i o' tn args info H1 H2 H3 H4 H5 H6 H7 H8 H9 H10 E|key q p tp o' tn args H1 H2 H3 H4 H5 H6 H7 H8 H9 H10 H11 E]; subst c; cbn in *; [by exists info|congruence]. }
          destruct Hb as (b & Hb & Hbs). pose proof (run_ops_info ops (Mem g (x_new r)) (d_sym d)) as E. fold m in E. rewrite Hs in *. cbn [cell_info mm_g] in E.
          rewrite (proj2 (get_info_recorded _ _ _ _) Hb) in E. eexists b, _. split; [done|]. split; [done|]. split; [cbn [cell_info]; exact E|]. split; [done|]. cbn [i_relationships with_rels].
          rewrite (Hrel0 _ _ _ Hb). split; [|done]. apply fresh_relationships; [done|]. intros s. apply Hexp.
        - destruct Hs as (Hs & _ & Hn). pose proof (run_ops_info ops (Mem g (x_new r)) (d_sym d)) as E. fold m in E. rewrite Hs in *. cbn [cell_info mm_new] in E.
          rewrite Hn in E. eexists _, _. split; [done|]. split; [done|]. split; [exact E|]. split; [done|]. split; [|done]. cbn [i_relationships with_rels bare_info].
          apply fresh_relationships; [done|]. intros s. rewrite Hadds.
          pose proof (proj1 DRc _ _ Hd) as (_ & _ & _ & _ & Hbase & _).
          rewrite (contributes_new _ _ _ _ _ _ _ _ _ _ c s DRc DLi Cc Wc Ep eq_refl).
          pose proof (contributes_other proj 0 _ _ (x_ifaces l) _ _ s DLc Hbase) as N1. pose proof (contributes_other proj 0 _ _ (x_ifaces r) _ _ s DLc Hbase) as N2.
          assert (Hnp : ¬ candidate proj c).
          { intros Cp. apply candidate_package in Cp as (key & q & p & K1 & K2 & K3); [|exact Hms..]. apply candidate_package in Cc as (key' & q' & p' & K1' & K2' & K3'); [|exact Hms..].
            apply remote_dependencies in K1' as [K1' Knone].
            assert (Hcp : ∀ p c, of_package env mset package_level scope_objects root version g p c → c_pkg c = p) by (intros p0 c0 [? ? ? ? ? ? []|? ? ? ? ? ? []]; done).
            pose proof (Hcp _ _ K3) as P1. pose proof (Hcp _ _ K3') as P2. destruct (Hkp _ _ K1) as (x & mo & X1 & X2 & _). destruct (Hka _ _ K1') as (y & mo' & Y1 & Y2 & _).
            assert (key = key') by congruence. congruence. }
          split.
          + intros [X|[X|(i & Hi & Wi & Hm & Es)]]; [done|done|]. exists i. split; [|done]. split; [|done]. by apply compare_dep.
          + intros (i & [[H1 H2 H3 H4|H1 H2 H3 H4] H5] & Es); [done|]. right. right. exists i. done. }
      assert (Hgain : ∀ info, info ∈ gained m (or_collect o (x_concretes r)) ↔ ∃ s d, x_concretes r !! s = Some d ∧ cell_info m (d_sym d) = Some info ∧ i_relationships info ≠ []).
      { intros info. unfold gained. rewrite elem_of_list_omap. split.
        - intros ([s d] & Hin & E). apply (in_order _ _ _ _ (oo_collect o Ho (x_concretes r))) in Hin. exists s, d. split; [done|]. cbn in E.
          destruct (cell_info m (d_sym d)) as [i|]; [|done]. destruct (i_relationships i) eqn:Er; [done|]. injection E as <-. split; [done|]. by rewrite Er.
        - intros (s & d & Hd & E & Hne). exists (s, d). split; [by apply (in_order _ _ _ _ (oo_collect o Ho (x_concretes r)))|]. cbn. rewrite E. by destruct (i_relationships info). }
      assert (Hsome : ∀ (l : list relationship) S, relationships_are l S → l ≠ [] ↔ ∃ s, S s).
      { intros l' S (_ & _ & HS). split.
        - destruct l' as [|x l']; [done|]. intros _. exists (r_symbol x). apply HS. by left.
        - intros [s Hs] ->. specialize (HS (Rel s false true false false)). cbn in HS.
          pose proof (proj2 HS (conj Hs eq_refl)) as X. by apply elem_of_nil in X. }
      split; [|split].
      + intros info Hin. apply Hgain in Hin as (s & d & Hd & E & Hne). destruct (proj1 DRc _ _ Hd) as (c & Cc & Sc & Wc & _ & _).
        destruct (Hcell c Cc Wc) as (d' & b & info' & Hd' & Hb & E' & Hsame & Hr & Hsym). rewrite Sc in Hd'. assert (d' = d) as -> by congruence.
        assert (info' = info) as -> by congruence. exists c, b. do 5 (split; [done|]). split; [|done]. by apply (Hsome _ _ Hr).
      + intros c Cc Wc Hs. destruct (Hcell c Cc Wc) as (d & b & info & Hd & Hb & E & Hsame & Hr & Hsym). exists info. split; [|done]. apply Hgain. exists (c_symbol c), d.
        split; [done|]. split; [done|]. by apply (Hsome _ _ Hr).
      + assert (Hkeys : ∀ l0, (∀ k d, (k, d) ∈ l0 → x_concretes r !! k = Some d) → NoDup (map fst l0) → NoDup (map i_symbol (gained m l0)) ∧ ∀ s, s ∈ map i_symbol (gained m l0) → s ∈ map fst l0).
        { induction l0 as [|[key d] l0 IH]; intros Hin Hnd; [split; [constructor|by intros s]|]. cbn in Hnd. apply NoDup_cons in Hnd as [Hx1 Hnd].
          destruct IH as [IH1 IH2]; [intros k' d' H; apply Hin; by right|done|].
          assert (Hd : x_concretes r !! key = Some d) by (apply Hin; by left). destruct (proj1 DRc _ _ Hd) as (c & Cc & Sc & Wc & _ & _).
          destruct (Hcell c Cc Wc) as (d' & b & info' & Hd' & Hb & E' & Hsame & Hr & Hsym). rewrite Sc in Hd', Hsym. assert (d' = d) as -> by congruence.
          unfold gained. cbn [omap list_omap snd]. rewrite E'. destruct (i_relationships info') eqn:Er.
          - split; [done|]. intros s H. right. by apply IH2.
          - cbn [map]. rewrite Hsym. split; [constructor; [|done]; intros H; apply Hx1; by apply IH2|].
            intros s H. apply elem_of_cons in H as [->|H]; [by left|right; by apply IH2]. }
        apply Hkeys.
        * intros k' d H. by apply (in_order _ _ _ _ (oo_collect o Ho (x_concretes r))).
        * rewrite (oo_collect o Ho (x_concretes r)). apply NoDup_fst_map_to_list.
  Qed.
End Impl.
