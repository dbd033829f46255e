(** C76: --skip-implementations drops the relationships between symbols and the external symbols,
    and changes nothing else. *)
From Coq Require Import Ascii String.
From stdpp Require Import prelude strings gmap sorting.
From Verif Require Import GoStr Scip GoTypes Ast Packages Symbols Document Lookup Pass1 Pass2 Paths Loader Index
  SpecSymbol SpecDecl SpecLookup SpecOcc SpecIndex P_Symbols P_Lookup P_Pass2 P_Occ P_Index PropIndex
  Quote Fingerprint SpecTypes P_Finger PropFinger Impls P_Rel P_Ident SpecImpl P_Filter P_Mem P_Extract P_Impl PropImpl PropDet.
Open Scope string_scope.
Open Scope list_scope.

(** the information about a symbol without its relationships *)
Definition unrelated (i : syminfo) : syminfo :=
  Info (i_symbol i) (i_documentation i) [] (i_kind i) (i_display_name i) (i_signature i) (i_enclosing i).
(** [d'] is [d] without relationships (symbols in any order) *)
Definition unrelated_document (d d' : document) : Prop :=
  d_path d' = d_path d ∧ d_occs d' = d_occs d ∧ d_symbols d' ≡ₚ map unrelated (d_symbols d).
(** the same index without relationships and external symbols *)
Definition unrelated_index (msgs msgs' : list message) : Prop :=
  ∃ meta ds ds' exts, msgs = MMeta meta :: map MDoc ds ++ map MExt exts ∧ msgs' = MMeta meta :: map MDoc ds' ∧
    Forall2 unrelated_document ds ds'.

Lemma same_info_sym i j : same_info i j → same_info j i.
Proof. intros (?&?&?&?&?&?). split_and!; done. Qed.
Lemma same_unrelated i j : same_info i j → i_relationships i = [] → i = unrelated j.
Proof. destruct i, j. unfold same_info. cbn. intros (->&->&->&->&->&->) ->. done. Qed.

Section Occs.
Context (env : tenv) (objs : nat → option obj) (root version : string) (fs : fset) (g g' : global).
Context (Hst : same_tables g g').

Lemma st_recorded id pos i : recorded g id pos i → ∃ i', recorded g' id pos i' ∧ same_info i i'.
Proof.
  intros (p & t & Hg & Hi). destruct (same_tables_lookup _ _ _ _ _ Hst Hg) as (t' & Hg' & H). specialize (H pos). rewrite Hi in H.
  destruct (t' !! pos) as [i'|] eqn:E; [|done]. exists i'. split; [by exists p, t'|done].
Qed.
End Occs.

Section Same.
Context (env : tenv) (objs : nat → option obj) (root version : string) (fs : fset) (g g' : global).
Context (Hst : same_tables g g').

Lemma st_unrecorded id pos : unrecorded g id pos → unrecorded g' id pos.
Proof. intros H i Hi. destruct (st_recorded _ _ (same_tables_sym _ _ Hst) _ _ _ Hi) as (i' & Hi' & _). by eapply H. Qed.

Definition same_result (r r' : lookup_result) : Prop :=
  match r, r' with Found i, Found i' => same_info i i' | Skip, Skip | LookupError, LookupError => True | _, _ => False end.
Lemma st_resolves o r : resolves env root version g o r → ∃ r', resolves env root version g' o r' ∧ same_result r r'.
Proof.
  intros [H|H|tp H1 H2|tp i H1 H2 H3 H4 H5|tp i H1 H2 H3 H4 H5 H6|tp i H1 H2 H3 H4 H5 H6 H7|tp p t H1 H2 H3 H4 H5 H6 H7 H8 H9|tp H1 H2 H3 H4 H5 H6 H7 H8].
  - exists Skip. split; [by apply rs_label|done].
  - exists Skip. split; [by apply rs_universe|done].
  - exists Skip. split; [by eapply rs_unsafe|done].
  - destruct (st_recorded _ _ Hst _ _ _ H5) as (i' & Hi' & Hs). exists (Found i'). split; [by eapply rs_own|done].
  - destruct (st_recorded _ _ Hst _ _ _ H6) as (i' & Hi' & Hs). exists (Found i'). split; [eapply rs_test; try done; by apply st_unrecorded|done].
  - destruct (st_recorded _ _ Hst _ _ _ H7) as (i' & Hi' & Hs). exists (Found i'). split; [eapply rs_variant; try done; by apply st_unrecorded|done].
  - destruct (same_tables_lookup _ _ _ _ _ Hst H8) as (t' & Hg' & _).
    eexists. split; [eapply rs_composed; try done; by apply st_unrecorded|]. by split_and!.
  - exists LookupError. split; [|done]. eapply rs_error; try done; try by apply st_unrecorded.
    intros p t Hg. destruct (same_tables_lookup _ _ _ _ _ (same_tables_sym _ _ Hst) Hg) as (t' & Hg' & _). by eapply H8.
Qed.
Lemma st_lk o : go_object objs o → same_result (lk env root version g o) (lk env root version g' o).
Proof.
  intros Ho. destruct (answer_history env objs g root version [] o) as (k & r & _ & _ & E); [constructor|done|].
  assert (R : resolves env root version g o (lk env root version g o)).
  { apply (answer_resolves env objs g root version o _ Ho). unfold lk. by rewrite E. }
  destruct (st_resolves _ _ R) as (r' & R' & Hs). apply (answer_resolves env objs g' root version o _ Ho) in R'.
  unfold lk at 2. by rewrite R'.
Qed.

Context (pkg : gpkg) (ti : tinfo) (tbl tbl' : ptable) (imports : string → option gpkg) (f : node).
Context (Hg : g_symbols g !! p_path pkg = Some (pkg, tbl)) (Hg' : g_symbols g' !! p_path pkg = Some (pkg, tbl')).
Context (Htf : typed_file fs ti imports objs f).

Lemma st_table pos : match tbl !! pos, tbl' !! pos with Some i, Some i' => same_info i i' | None, None => True | _, _ => False end.
Proof. destruct (same_tables_lookup _ _ _ _ _ Hst Hg) as (t' & E & H). assert (t' = tbl') as -> by congruence. apply H. Qed.
Lemma st_registered pos : match registered g pkg tbl pos, registered g' pkg tbl' pos with Some i, Some i' => same_info i i' | None, None => True | _, _ => False end.
Proof.
  unfold registered. rewrite Hg, Hg'. pose proof (st_table pos) as H. destruct (tbl !! pos), (tbl' !! pos); done.
Qed.
Lemma st_hidden par : hidden g ti par = hidden g' ti par.
Proof. unfold hidden. destruct Hst as [-> _]. done. Qed.
Lemma st_local_def e : local_def g pkg ti tbl e = local_def g' pkg ti tbl' e.
Proof.
  unfold local_def, plain_ident. destruct e as [par n]. destruct n; try done. rewrite (st_hidden par).
  destruct (hidden g' ti par); [done|]. destruct (names_package ti i); [done|]. destruct (String.eqb _ _); [done|].
  destruct (switch_object ti i); [done|]. destruct (ti_defs ti (id_ptr i)) as [d|]; [|done].
  pose proof (st_registered (o_pos d)) as H. destruct (registered g pkg tbl (o_pos d)), (registered g' pkg tbl' (o_pos d)); done.
Qed.
Lemma st_local_defs : local_defs g pkg ti tbl f = local_defs g' pkg ti tbl' f.
Proof.
  unfold local_defs. induction (file_nodes f) as [|e l IH]; [done|]. cbn. by rewrite (st_local_def e), IH.
Qed.
Lemma st_node_occs before e :
  node_occs g fs pkg ti tbl imports (lk env root version g) before e = node_occs g' fs pkg ti tbl' imports (lk env root version g') before e.
Proof.
  pose proof (st_local_def e) as Hl. destruct e as [par n]. destruct n; try done.
  - cbn [node_occs]. rewrite <- st_hidden. destruct (hidden g ti par); [done|].
    destruct (names_package ti i) as [[o path]|] eqn:Hn; [destruct Hst as [-> _]; done|].
    destruct (String.eqb _ _); [done|]. destruct (switch_object ti i); [done|]. f_equal.
    + unfold def_occs. destruct (ti_defs ti (id_ptr i)) as [d|]; [|done].
      pose proof (st_registered (o_pos d)) as H. destruct (registered g pkg tbl (o_pos d)), (registered g' pkg tbl' (o_pos d)); try done.
      destruct H as (-> & -> & _). done.
    + rewrite Hl. unfold use_occs. destruct (ti_uses ti (id_ptr i)) as [o|] eqn:Hu; [|done].
      destruct (local_symbol _ _); [done|].
      pose proof (st_lk o (tf_uses _ _ _ _ _ Htf _ _ Hu (names_package_none ti _ _ Hn Hu))) as H.
      destruct (lk env root version g o), (lk env root version g' o); try done. destruct H as (-> & -> & _). done.
  - cbn [node_occs]. unfold import_refs. destruct Hst as [-> _]. done.
Qed.
Lemma st_nodes_occs l : ∀ before,
  nodes_occs g fs pkg ti tbl imports (lk env root version g) before l = nodes_occs g' fs pkg ti tbl' imports (lk env root version g') before l.
Proof. induction l as [|e l IH]; intros before; [done|]. cbn. by rewrite st_node_occs, IH, st_local_def. Qed.
End Same.

Section Skip.
Context (digest : string → string) (env : tenv) (u : unicode) (crc : string → N) (mset : ty → list obj) (constraint_ok : ty → ty → bool).
Context (objs : nat → option obj) (package_level : gpkg → obj → bool) (scope_objects : gpkg → list obj).
Context (fs : fset) (objstr : obj → string) (root version : string) (h : pheap) (all proj : ptab) (ps : list gpkg).
Context (Hix : indexable objs fs h all proj ps) (Han : analysable env mset objs scope_objects h all proj).

Lemma unrelated_table (fl : string) (tbl tbl' : ptable) (to to' : list (Z * syminfo)) :
  (∀ pos, match tbl' !! pos, tbl !! pos with Some i, Some i' => same_info i i' | None, None => True | _, _ => False end) →
  (∀ pos i, tbl' !! pos = Some i → i_relationships i = []) → to ≡ₚ map_to_list tbl → to' ≡ₚ map_to_list tbl' →
  map snd (symbols_for_file fs fl to') ≡ₚ map unrelated (map snd (symbols_for_file fs fl to)).
Proof.
  intros Hs Hr Ht Ht'. unfold symbols_for_file. rewrite Ht, Ht'.
  assert (Et : tbl' = unrelated <$> tbl).
  { apply map_eq. intros pos. rewrite lookup_fmap. specialize (Hs pos). pose proof (Hr pos) as Hrp.
    destruct (tbl' !! pos) as [i|], (tbl !! pos) as [j|]; try done. cbn. f_equal. apply same_unrelated; [done|by apply Hrp]. }
  rewrite Et, (map_to_list_fmap unrelated tbl), map_map. clear.
  induction (map_to_list tbl) as [|[pos i] l IH]; [done|]. cbn [map prod_map fmap list_fmap]. rewrite !filter_cons. cbn [fst prod_map]. change (id pos) with pos.
  destruct (decide (fs_file fs pos = Some fl)); [|exact IH]. cbn [map]. cbn. by rewrite IH.
Qed.

Lemma unrelated_documents g0 g p f d d' : tables_ok digest env fs h all ps g0 → same_tables g0 g → p ∈ ps → f ∈ p_syntax p →
  document_for env objs root version fs h objstr g p f d → document_for env objs root version fs h objstr g0 p f d' → unrelated_document d d'.
Proof.
  intros Htab Hst Hp Hf (ti & tbl & st & sym & name & to & lo & H1 & H2 & H3 & H4 & H5 & H6 & H7 & ->) (ti' & tbl' & st' & sym' & name' & to' & lo' & H1' & H2' & H3' & H4' & H5' & H6' & H7' & ->).
  assert (ti' = ti) as -> by congruence. assert (sym' = sym) as -> by (destruct Hst as [E _]; congruence).
  assert (name' = name) as -> by (unfold file_of in *; congruence).
  destruct (tpj_info _ _ _ _ (ix_typed _ _ _ _ _ _ Hix) p f Hp Hf) as (ti' & n' & Hti & Htf & _ & _). assert (ti' = ti) as -> by congruence.
  destruct (visited_occs env objs root version g fs p ti tbl (imports_of h p) _ f _ Htf (lk_answers env objs root version g fs ti (imports_of h p) f Htf) st H5) as (_ & O & I).
  destruct (visited_occs env objs root version g0 fs p ti tbl' (imports_of h p) _ f _ Htf (lk_answers env objs root version g0 fs ti (imports_of h p) f Htf) st' H5') as (_ & O' & I').
  split; [done|]. split.
  - cbn [to_document d_occs]. rewrite O, O'. f_equal. by apply (st_nodes_occs env objs root version fs g0 g Hst p ti tbl' tbl (imports_of h p) f H3' H3 Htf).
  - cbn [to_document d_symbols]. rewrite List.map_app. apply Permutation_app.
    + eapply unrelated_table; [|intros pos i Hi; eapply (tables_initial digest env fs h all proj ps g0 Htab (ix_order _ _ _ _ _ _ Hix)); by exists p, tbl'|done|done].
      intros pos. by apply (st_table g0 g Hst p tbl' tbl H3' H3).
    + rewrite map_map. assert (El : f_locals st' = f_locals st).
      { apply map_eq. intros pos. rewrite (iv_locals _ _ _ _ _ _ _ I), (iv_locals _ _ _ _ _ _ _ I').
        by rewrite (st_local_defs g0 g Hst p ti tbl' tbl f H3' H3). }
      assert (lo' ≡ₚ lo) as -> by (by rewrite H7, H7', El). by erewrite map_ext; [reflexivity|intros []].
Qed.

Context (impl_error : string).
Notation phase it := (impl_phase env u crc mset constraint_ok package_level scope_objects (it_search it) h proj all).
Notation run skip meta it w := (Index.index digest env fs h objstr (it_maps it) w (phase it) impl_error root version skip meta (LoadOk all proj) (it_proj it) (it_all it) (it_proj2 it)).

(** two runs, with and without the flag, also if their metadata differ *)
Lemma skip_parts meta meta' it1 it2 w1 w2 msgs msgs' : iteration_ok h all proj it1 → iteration_ok h all proj it2 →
  run false meta it1 w1 = (msgs, Returned None) → run true meta' it2 w2 = (msgs', Returned None) →
  ∃ ds ds' exts, msgs = MMeta meta :: map MDoc ds ++ map MExt exts ∧ msgs' = MMeta meta' :: map MDoc ds' ∧ Forall2 unrelated_document ds ds'.
Proof.
  intros (Hm1 & Ho1 & P1 & A1 & Q1) (Hm2 & Ho2 & P2 & A2 & Q2) R1 R2.
  destruct (success digest env objs fs h objstr (it_maps it1) root version all proj ps (phase it1) impl_error _ _ _ false meta w1 Hix Hm1 P1 A1 Q1
    (search_contract env u crc mset constraint_ok objs package_level scope_objects root version h all proj Han _ Ho1) msgs R1) as (ds1 & exts1 & g01 & g1 & k1 & -> & T1 & _ & Hst & D1).
  destruct (success digest env objs fs h objstr (it_maps it2) root version all proj ps (phase it2) impl_error _ _ _ true meta' w2 Hix Hm2 P2 A2 Q2
    (search_contract env u crc mset constraint_ok objs package_level scope_objects root version h all proj Han _ Ho2) msgs' R2) as (ds2 & exts2 & g02 & g2 & k2 & -> & T2 & S2 & _ & D2).
  unfold searched in S2. injection S2 as <- <- <-. assert (g02 = g01) as -> by (by eapply tables_unique).
  exists ds1, ds2, exts1. split; [done|]. cbn [map]. rewrite List.app_nil_r. split; [done|].
  assert (X : ∀ e, e ∈ files_in_order ps → ∀ d d', document_for env objs root version fs h objstr g1 e.1 e.2 d → document_for env objs root version fs h objstr g01 e.1 e.2 d' → unrelated_document d d').
  { intros [p f] Hin d d' Ha Hb. apply files_elem in Hin as [Hp Hf]. by eapply unrelated_documents. }
  clear -D1 D2 X. revert ds2 D2. induction D1 as [|e d1 l ds1 H1 _ IH]; intros ds2 D2; inversion D2 as [|? d2 ? ds2' H2 D2']; subst; constructor.
  - eapply X; [left|done|done].
  - apply IH; [|done]. intros e' He'. apply X. by right.
Qed.

(** C76: a successful run with the flag gives the index of a successful run without it, less
    the relationships and the external symbols, whatever the iteration orders and the writers. *)
Theorem C76_only_relationships : ∀ meta it1 it2 w1 w2 msgs msgs',
  iteration_ok h all proj it1 → iteration_ok h all proj it2 →
  run false meta it1 w1 = (msgs, Returned None) → run true meta it2 w2 = (msgs', Returned None) → unrelated_index msgs msgs'.
Proof.
  intros meta it1 it2 w1 w2 msgs msgs' I1 I2 R1 R2. destruct (skip_parts _ _ _ _ _ _ _ _ I1 I2 R1 R2) as (ds & ds' & exts & H). by exists meta, ds, ds', exts.
Qed.

(** With the flag, and a writer that works, the indexer never fails on a loaded project, even
    if the search would: the search fails before any document is written, and then the flag is
    a way out. *)
Theorem C76_always_succeeds : ∀ meta it1 it2, iteration_ok h all proj it1 → iteration_ok h all proj it2 →
  ∃ ds', run true meta it2 (λ _ _, None) = (MMeta meta :: map MDoc ds', Returned None) ∧
    (run false meta it1 (λ _ _, None) = ([MMeta meta], Returned (Some impl_error)) ∨
     (∃ m, run false meta it1 (λ _ _, None) = ([MMeta meta], Crashed m)) ∨
     ∃ ds exts, run false meta it1 (λ _ _, None) = (MMeta meta :: map MDoc ds ++ map MExt exts, Returned None) ∧ Forall2 unrelated_document ds ds').
Proof.
  intros meta it1 it2 I1 I2. pose proof I1 as (Hm1 & Ho1 & P1 & A1 & Q1). pose proof I2 as (Hm2 & Ho2 & P2 & A2 & Q2).
  destruct (pipeline digest env objs fs h objstr (it_maps it1) root version all proj (ix_loaded _ _ _ _ _ _ Hix) ps (it_proj it1) (it_all it1) (it_proj2 it1) (phase it1) impl_error false meta
    (ix_order _ _ _ _ _ _ Hix) (ix_typed _ _ _ _ _ _ Hix) Hm1 P1 A1 Q1 (search_contract env u crc mset constraint_ok objs package_level scope_objects root version h all proj Han _ Ho1)) as (g01 & T1 & Hcase1).
  destruct (pipeline digest env objs fs h objstr (it_maps it2) root version all proj (ix_loaded _ _ _ _ _ _ Hix) ps (it_proj it2) (it_all it2) (it_proj2 it2) (phase it2) impl_error true meta
    (ix_order _ _ _ _ _ _ Hix) (ix_typed _ _ _ _ _ _ Hix) Hm2 P2 A2 Q2 (search_contract env u crc mset constraint_ok objs package_level scope_objects root version h all proj Han _ Ho2)) as (g02 & T2 & Hcase2).
  unfold searched at 1 in Hcase2. destruct Hcase2 as (_ & ds' & E2 & _). cbn [map] in E2. rewrite List.app_nil_r in E2.
  exists ds'. split; [exact E2|]. destruct (searched root version (phase it1) false g01) as [[[[g1 k1] exts1]|]|m].
  - right. right. destruct Hcase1 as (_ & ds & E1 & _). exists ds, exts1. split; [exact E1|].
    destruct (C76_only_relationships meta it1 it2 _ _ _ _ I1 I2 E1 E2) as (m & dsa & dsb & ea & Ea & Eb & HF).
    assert (X : ∀ msgs dsx ex dsy ey (m' m'' : metadata), MMeta m' :: map MDoc dsx ++ map MExt ex = msgs → msgs = MMeta m'' :: map MDoc dsy ++ map MExt ey → dsx = dsy).
    { intros msgs dsx ex dsy ey m' m'' <- E. apply (f_equal documents) in E. by rewrite !documents_msgs in E. }
    rewrite (X _ _ _ _ _ _ _ eq_refl Ea). rewrite (X (MMeta meta :: map MDoc ds') ds' [] dsb [] meta m); [done|cbn; by rewrite List.app_nil_r|cbn [map]; by rewrite List.app_nil_r].
  - by left.
  - right. left. by exists m.
Qed.
End Skip.
Print Assumptions C76_only_relationships.
Print Assumptions C76_always_succeeds.
