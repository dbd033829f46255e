(** C57: the index does not depend on the iteration order of Go maps. *)
From Coq Require Import Ascii String.
From stdpp Require Import prelude strings gmap sorting.
From Verif Require Import GoStr Scip GoTypes Ast Packages Symbols Document Lookup Pass1 Pass2 Paths Loader Index
  SpecSymbol SpecDecl SpecLookup SpecOcc SpecIndex P_Symbols P_Lookup P_Pass2 P_Occ P_Index PropIndex
  Quote Fingerprint SpecTypes P_Finger PropFinger Impls P_Rel P_Ident SpecImpl P_Filter P_Mem P_Extract P_Impl PropImpl.
Open Scope string_scope.
Open Scope list_scope.

(** the iteration orders of every map in one run *)
Record iteration := Iteration {
  it_maps : map_orders; it_search : orders;
  it_proj : list string; it_all : list string; it_proj2 : list string }.
Definition iteration_ok (h : pheap) (all proj : ptab) (it : iteration) : Prop :=
  SpecIndex.orders_ok (it_maps it) ∧ iterates h (it_search it) ∧
  key_order proj (it_proj it) ∧ key_order all (it_all it) ∧ key_order proj (it_proj2 it).

(** two documents, two indexes that differ only in the order of lists of symbols *)
Definition same_document (d d' : document) : Prop :=
  d_path d = d_path d' ∧ d_occs d = d_occs d' ∧ d_symbols d ≡ₚ d_symbols d'.
Definition same_index (msgs msgs' : list message) : Prop :=
  ∃ meta ds ds' exts exts',
    msgs = MMeta meta :: map MDoc ds ++ map MExt exts ∧ msgs' = MMeta meta :: map MDoc ds' ++ map MExt exts' ∧
    Forall2 same_document ds ds' ∧ exts ≡ₚ exts'.

Section Det.
Context (digest : string → string) (env : tenv) (u : unicode) (crc : string → N) (mset : ty → list obj) (constraint_ok : ty → ty → bool).
Context (objs : nat → option obj) (package_level : gpkg → obj → bool) (scope_objects : gpkg → list obj).
Context (fs : fset) (objstr : obj → string) (root version : string) (h : pheap) (all proj : ptab) (ps : list gpkg).
Context (Hix : indexable objs fs h all proj ps) (Han : analysable env mset objs scope_objects h all proj).

(** the tables after the first pass are unique *)
Lemma pass1_unique p t t' : pass1_table digest env fs p t → pass1_table digest env fs p t' → t = t'.
Proof.
  unfold pass1_table. destruct (p_syntax p); [congruence|]. destruct (p_info p); [|done].
  intros (a & m & H1 & H2 & ->) (b & m' & H3 & H4 & ->). congruence.
Qed.
Lemma tables_unique g g' : tables_ok digest env fs h all ps g → tables_ok digest env fs h all ps g' → g = g'.
Proof.
  intros H H'. destruct (ix_loaded _ _ _ _ _ _ Hix) as (Hka & _ & _). destruct g as [s y], g' as [s' y']. f_equal; apply map_eq; intros k.
  - destruct (decide (k ∈ map p_path ps)) as [Hk|Hk].
    + apply elem_of_list_fmap in Hk as (p & -> & Hp).
      destruct (tk_proj _ _ _ _ _ _ _ H p Hp) as (t & E & Ht). destruct (tk_proj _ _ _ _ _ _ _ H' p Hp) as (t' & E' & Ht').
      cbn in E, E'. rewrite E, E'. f_equal. f_equal. by eapply pass1_unique.
    + destruct (all !! k) as [q|] eqn:Eq.
      * destruct (Hka _ _ Eq) as (p & m & Hh & _ & _).
        pose proof (tk_all _ _ _ _ _ _ _ H _ _ _ Eq Hh Hk) as E. pose proof (tk_all _ _ _ _ _ _ _ H' _ _ _ Eq Hh Hk) as E'. cbn in E, E'. congruence.
      * pose proof (tk_none _ _ _ _ _ _ _ H _ Eq Hk) as E. pose proof (tk_none _ _ _ _ _ _ _ H' _ Eq Hk) as E'. cbn in E, E'. congruence.
  - destruct (all !! k) as [q|] eqn:Eq.
    + destruct (Hka _ _ Eq) as (p & m & Hh & _ & Hm).
      pose proof (tk_syms _ _ _ _ _ _ _ H _ _ _ _ Eq Hh Hm) as E. pose proof (tk_syms _ _ _ _ _ _ _ H' _ _ _ _ Eq Hh Hm) as E'. cbn in E, E'. congruence.
    + pose proof (tk_nosym _ _ _ _ _ _ _ H _ Eq) as E. pose proof (tk_nosym _ _ _ _ _ _ _ H' _ Eq) as E'. cbn in E, E'. congruence.
Qed.

(** the documents of a file for one table *)
Lemma documents_unique g p f d d' : p ∈ ps → f ∈ p_syntax p →
  document_for env objs root version fs h objstr g p f d → document_for env objs root version fs h objstr g p f d' → same_document d d'.
Proof.
  intros Hp Hf (ti & tbl & st & sym & name & to & lo & H1 & H2 & H3 & H4 & H5 & H6 & H7 & ->) (ti' & tbl' & st' & sym' & name' & to' & lo' & H1' & H2' & H3' & H4' & H5' & H6' & H7' & ->).
  assert (ti' = ti) as -> by congruence. assert (tbl' = tbl) as -> by congruence. assert (sym' = sym) as -> by congruence.
  assert (name' = name) as -> by (unfold file_of in *; congruence).
  destruct (tpj_info _ _ _ _ (ix_typed _ _ _ _ _ _ Hix) p f Hp Hf) as (ti' & n' & Hti & Htf & _ & _). assert (ti' = ti) as -> by congruence.
  pose proof (lk_answers env objs root version g fs ti (imports_of h p) f Htf) as Hans.
  destruct (visited_occs env objs root version g fs p ti tbl (imports_of h p) _ f _ Htf Hans st H5) as (_ & O & I).
  destruct (visited_occs env objs root version g fs p ti tbl (imports_of h p) _ f _ Htf Hans st' H5') as (_ & O' & I').
  split; [done|]. split; [cbn; congruence|]. cbn [to_document d_symbols].
  assert (to ≡ₚ to') as Et by (by rewrite H6, H6'). assert (lo ≡ₚ lo') as El.
  { rewrite H7, H7'. by rewrite (state_ext env objs root version st st' _ g I I'). }
  apply Permutation_app.
  - apply Permutation_map. unfold symbols_for_file. by apply filter_Permutation.
  - by apply Permutation_map.
Qed.

Context (impl_error : string).
Notation phase it := (impl_phase env u crc mset constraint_ok package_level scope_objects (it_search it) h proj all).
Notation run skip meta it w := (Index.index digest env fs h objstr (it_maps it) w (phase it) impl_error root version skip meta (LoadOk all proj) (it_proj it) (it_all it) (it_proj2 it)).
Notation distinct g pkgs := (distinct_symbols env mset package_level scope_objects root version h g pkgs).
Notation search o := (add_implementation_relationships env u crc mset constraint_ok package_level scope_objects o h proj all).

(** if the search succeeds, then the methods of all candidates can be encoded *)
Lemma search_encodable g o k deps r : initial_tables h all proj g → iterates h o → caches_ok env objs g root version k → dependencies all proj deps →
  distinct g proj → distinct g deps → search o g k = Ok r →
  ∀ c, candidate env mset package_level scope_objects root version h g proj c ∨ candidate env mset package_level scope_objects root version h g deps c →
    ∀ m, has_method env mset (c_type c) m → ∃ e, encode u (o_type m) = Ok e.
Proof.
  intros Hi [Ho Hdo] Hk Hdeps DP DD E. assert (deps = remote_packages all proj) as ->.
  { apply map_eq. intros key. apply option_eq. intros q. pose proof (Hdeps key q). pose proof (remote_dependencies all proj key q). tauto. }
  pose proof (an_methods _ _ _ _ _ _ _ Han) as Hms. unfold add_implementation_relationships in E.
  pose proof (extract_ok env u crc mset objs Hms package_level scope_objects root version h g o proj [] k Hdo (oo_packages o Ho)) as HL.
  match type of HL with ?A → _ => assert (HA : A) by (intros key q p H1 H2; eapply (an_exports env mset objs scope_objects h all proj Han g Hi); [by left|done]) end. specialize (HL HA Hk). clear HA.
  destruct (extract env u crc mset package_level scope_objects o h g proj [] k) as [l|]; cbn [res_bind] in E; [|done].
  destruct HL as (CL & (HkL & _ & [RLi HLi] & [RLc HLc]) & HCL).
  pose proof (extract_ok env u crc mset objs Hms package_level scope_objects root version h g o (remote_packages all proj) (x_new l) (x_k l) Hdo (oo_packages o Ho)) as HR.
  match type of HR with ?A → _ => assert (HA : A) by (intros key q p H1 H2; apply remote_dependencies in H1; eapply (an_exports env mset objs scope_objects h all proj Han g Hi); [by right|done]) end.
  specialize (HR HA HkL). clear HA.
  destruct (extract env u crc mset package_level scope_objects o h g _ (x_new l) (x_k l)) as [r'|]; cbn [res_bind] in E; [|done]. clear E.
  destruct HR as (CR & (_ & _ & [RRi HRi] & [RRc HRc]) & HCR).
  assert (Hgo : ∀ c new lo hi d, named (c_type c) → def_of env u crc mset root version g new lo hi c d → ∀ m, has_method env mset (c_type c) m → ∃ e, encode u (o_type m) = Ok e).
  { intros c new lo hi d Hn Hdef m Hm. destruct (do_describes _ _ _ _ _ _ _ _ _ _ _ _ Hdef) as (_ & _ & Hmask & _).
    destruct (mask_encodes u crc _ _ m Hmask) as (fp & tr & He); [by apply (intuitive_has env mset objs Hms _ _ Hn)|]. eauto. }
  intros c [Hc|Hc].
  - destruct (is_interface env (c_type c)) eqn:Ew.
    + destruct (defs_for_of env u crc mset package_level scope_objects root version h g proj CL true 0 _ _ _ DP HCL HLi) as (_ & T & _). destruct (T c Hc Ew) as (d & _ & Hd). eapply Hgo; [by eapply candidate_named|done].
    + destruct (defs_for_of env u crc mset package_level scope_objects root version h g proj CL false 0 _ _ _ DP HCL HLc) as (_ & T & _). destruct (T c Hc Ew) as (d & _ & Hd). eapply Hgo; [by eapply candidate_named|done].
  - destruct (is_interface env (c_type c)) eqn:Ew.
    + destruct (defs_for_of env u crc mset package_level scope_objects root version h g _ CR true _ _ _ _ DD HCR HRi) as (_ & T & _). destruct (T c Hc Ew) as (d & _ & Hd). eapply Hgo; [by eapply candidate_named|done].
    + destruct (defs_for_of env u crc mset package_level scope_objects root version h g _ CR false _ _ _ _ DD HCR HRc) as (_ & T & _). destruct (T c Hc Ew) as (d & _ & Hd). eapply Hgo; [by eapply candidate_named|done].
Qed.

(** C57: two successful runs on the same loaded project, whatever the iteration orders of maps
    and whatever the writers, give the same index up to the order of the lists of symbols. *)
Theorem C57_deterministic : ∀ skip meta it1 it2 w1 w2 deps msgs1 msgs2,
  iteration_ok h all proj it1 → iteration_ok h all proj it2 → dependencies all proj deps →
  (∀ g, tables_ok digest env fs h all ps g → distinct g proj ∧ distinct g deps) →
  run skip meta it1 w1 = (msgs1, Returned None) → run skip meta it2 w2 = (msgs2, Returned None) → same_index msgs1 msgs2.
Proof.
  intros skip meta it1 it2 w1 w2 deps msgs1 msgs2 (Hm1 & Ho1 & P1 & A1 & Q1) (Hm2 & Ho2 & P2 & A2 & Q2) Hdeps HD R1 R2.
  destruct (success digest env objs fs h objstr (it_maps it1) root version all proj ps (phase it1) impl_error _ _ _ skip meta w1 Hix Hm1 P1 A1 Q1
    (search_contract env u crc mset constraint_ok objs package_level scope_objects root version h all proj Han _ Ho1) msgs1 R1) as (ds1 & exts1 & g01 & g1 & k1 & -> & T1 & S1 & _ & D1).
  destruct (success digest env objs fs h objstr (it_maps it2) root version all proj ps (phase it2) impl_error _ _ _ skip meta w2 Hix Hm2 P2 A2 Q2
    (search_contract env u crc mset constraint_ok objs package_level scope_objects root version h all proj Han _ Ho2) msgs2 R2) as (ds2 & exts2 & g02 & g2 & k2 & -> & T2 & S2 & _ & D2).
  assert (g02 = g01) as -> by (by apply tables_unique).
  assert (g1 = g2 ∧ exts1 ≡ₚ exts2) as [<- Hexts].
  { unfold searched in S1, S2. destruct skip; [injection S1 as <- <- <-; injection S2 as <- <- <-; done|]. unfold impl_phase in S1, S2.
    destruct (search (it_search it1) g01 _) as [[[[g1' k1'] e1'] c1]|] eqn:E1; [|done]. cbn in S1. injection S1 as -> -> ->.
    destruct (search (it_search it2) g01 _) as [[[[g2' k2'] e2'] c2]|] eqn:E2; [|done]. cbn in S2. injection S2 as -> -> ->.
    destruct (HD g01 T1) as [DP DD].
    eapply (C34_order_independent env u crc mset constraint_ok objs package_level scope_objects root version h all proj Han g01 (it_search it1) (it_search it2)); [|exact Ho1|exact Ho2|apply fresh_ok|apply fresh_ok|exact Hdeps|done|done|exact E1|exact E2].
    eapply tables_initial; [done|apply (ix_order _ _ _ _ _ _ Hix)]. }
  exists meta, ds1, ds2, exts1, exts2. split; [done|]. split; [done|]. split; [|done].
  assert (X : ∀ e, e ∈ files_in_order ps → ∀ d d', document_for env objs root version fs h objstr g1 e.1 e.2 d → document_for env objs root version fs h objstr g1 e.1 e.2 d' → same_document d d').
  { intros [p f] Hin d d' Ha Hb. apply files_elem in Hin as [Hp Hf]. by eapply documents_unique. }
  clear -D1 D2 X. revert ds2 D2. induction D1 as [|e d1 l ds1 H1 _ IH]; intros ds2 D2; inversion D2 as [|? d2 ? ds2' H2 D2']; subst; constructor.
  - eapply X; [left|done|done].
  - apply IH; [|done]. intros e' He'. apply X. by right.
Qed.

(** ... and with a writer that does not fail, if one run succeeds then so does the other. *)
Theorem C57_success_independent : ∀ skip meta it1 it2 deps msgs1,
  iteration_ok h all proj it1 → iteration_ok h all proj it2 → dependencies all proj deps →
  (∀ g, tables_ok digest env fs h all ps g → distinct g proj ∧ distinct g deps) →
  run skip meta it1 (λ _ _, None) = (msgs1, Returned None) →
  ∃ msgs2, run skip meta it2 (λ _ _, None) = (msgs2, Returned None) ∧ same_index msgs1 msgs2.
Proof.
  intros skip meta it1 it2 deps msgs1 I1 I2 Hdeps HD R1.
  assert (∃ msgs2, run skip meta it2 (λ _ _, None) = (msgs2, Returned None)) as [msgs2 R2].
  2:{ exists msgs2. split; [done|]. by eapply (C57_deterministic skip meta it1 it2). }
  destruct I1 as (Hm1 & Ho1 & P1 & A1 & Q1), I2 as (Hm2 & Ho2 & P2 & A2 & Q2).
  destruct (success digest env objs fs h objstr (it_maps it1) root version all proj ps (phase it1) impl_error _ _ _ skip meta (λ _ _, None) Hix Hm1 P1 A1 Q1
    (search_contract env u crc mset constraint_ok objs package_level scope_objects root version h all proj Han _ Ho1) msgs1 R1) as (ds1 & exts1 & g01 & g1 & k1 & _ & T1 & S1 & _ & _).
  destruct (pipeline digest env objs fs h objstr (it_maps it2) root version all proj (ix_loaded _ _ _ _ _ _ Hix) ps (it_proj it2) (it_all it2) (it_proj2 it2) (phase it2) impl_error skip meta
    (ix_order _ _ _ _ _ _ Hix) (ix_typed _ _ _ _ _ _ Hix) Hm2 P2 A2 Q2 (search_contract env u crc mset constraint_ok objs package_level scope_objects root version h all proj Han _ Ho2)) as (g02 & T2 & Hcase).
  assert (g02 = g01) as -> by (by apply tables_unique). unfold searched in *. destruct skip.
  - destruct Hcase as (_ & ds & E & _). eexists. exact E.
  - unfold impl_phase at 1 in Hcase. unfold impl_phase in S1.
    destruct (search (it_search it1) g01 _) as [[[[g1' k1'] e1'] c1]|] eqn:E1; [|done]. destruct (HD g01 T1) as [DP DD].
    assert (Hi : initial_tables h all proj g01) by (eapply tables_initial; [done|apply (ix_order _ _ _ _ _ _ Hix)]).
    pose proof (search_encodable g01 _ _ deps _ Hi Ho1 (fresh_ok _ _ _ _ _) Hdeps DP DD E1) as Henc.
    pose proof (whole env u crc mset constraint_ok objs package_level scope_objects root version h all proj Han g01 (it_search it2) (fresh_caches root version) deps Hi Ho2 (fresh_ok _ _ _ _ _) Hdeps) as Hw.
    destruct (search (it_search it2) g01 _) as [[[[g2' k2'] e2'] c2]|] eqn:E2.
    + cbn in Hcase. destruct Hcase as (_ & ds & E & _). eexists. exact E.
    + destruct Hw as (c & Hc & Hn). destruct Hn. by apply Henc.
Qed.
End Det.
Print Assumptions C57_deterministic.
Print Assumptions C57_success_independent.
