(** C32-C36: the search for implementations. *)
From Coq Require Import Ascii String.
From stdpp Require Import prelude strings gmap sorting.
From Verif Require Import GoStr Scip GoTypes Ast Packages Symbols Document Lookup Pass1 Pass2 Paths Loader Index
  SpecSymbol SpecDecl SpecLookup SpecOcc SpecIndex P_Symbols P_Lookup P_Index PropIndex
  Quote Fingerprint SpecTypes P_Finger PropFinger Impls P_Rel P_Ident SpecImpl P_Filter P_Mem P_Extract P_Impl.
Open Scope string_scope.
Open Scope list_scope.

(** *** C32: the filters by number of methods and by bitmask never reject a type that implements
    the interface, whatever the checksum function. *)
Theorem C32_filters_lose_nothing : ∀ env u crc mset constraint_ok objs t i mask imask,
  method_sets env mset objs → named t → is_interface env t = false → named i →
  satisfies env mset constraint_ok t i →
  method_mask u crc (intuitive_method_set env mset t) = Ok mask →
  method_mask u crc (intuitive_method_set env mset i) = Ok imask →
  length (intuitive_method_set env mset i) ≤ length (intuitive_method_set env mset t) ∧ N.land mask imask = imask.
Proof.
  intros env u crc mset cok objs t i mask imask Hms Hnt Ht Hn Hs H1 H2. split; [by eapply satisfies_count|].
  eapply (mask_subset u crc); [exact H1|exact H2|]. intros m Hm. by eapply satisfies_methods.
Qed.
Print Assumptions C32_filters_lose_nothing.

(** ... so for types of one package, or interfaces without unexported methods, the checks of the
    search hold exactly when the type or its pointer type implements the interface. *)
Theorem C32_checks_exact : ∀ env u crc mset constraint_ok objs d e t i p q,
  method_sets env mset objs → named t → is_interface env t = false → named i →
  describes env u crc mset d t p → describes env u crc mset e i q → (p = q ∨ ¬ sealed env mset i) →
  passes env mset constraint_ok d e = true ↔ satisfies env mset constraint_ok t i.
Proof.
  intros env u crc mset cok objs d e t i p q Hms Hnt Ht Hn Hd He Hp.
  rewrite (passes_spec env u crc mset cok objs Hms d e t i p q Hd He Hnt Ht Hn). split; [by intros [? _]|]. intros Hs. split; [done|]. intros Hx. by destruct Hp.
Qed.
Print Assumptions C32_checks_exact.

Lemma mask_bit_small x : (mask_bit x < 64)%N.
Proof. unfold mask_bit. change 63%N with (N.ones 6). rewrite N.land_ones. by apply N.mod_lt. Qed.
(** the mask fits in the 64 bits that the program has for it *)
Theorem C32_mask_fits : ∀ u crc l mask, method_mask u crc l = Ok mask → (mask < 2 ^ 64)%N.
Proof.
  intros u crc l mask H.
  assert (X : ∀ n, (64 ≤ n)%N → N.testbit mask n = false).
  { intros n Hn. pose proof (method_mask_spec u crc l mask H n) as Hb. destruct (N.testbit mask n) eqn:E; [|done].
    apply proj1 in Hb. destruct (Hb eq_refl) as (m & fp & tr & _ & _ & ->). pose proof (mask_bit_small (crc (obj_Id m +:+ fp))). lia. }
  destruct (decide (mask = 0%N)) as [->|Hne]; [done|]. apply N.log2_lt_pow2; [lia|].
  destruct (N.lt_ge_cases (N.log2 mask) 64) as [|Hge]; [done|]. specialize (X _ Hge). by rewrite N.bit_log2 in X.
Qed.
Print Assumptions C32_mask_fits.

(** *** C33: the filter by unexported methods.  Full claim: a type that implements an interface
    with unexported methods is in the same package.  It holds when the unexported methods of both
    are declared in their own packages; refuted below when they come from embedded types. *)
Lemma same_id_package objs m m' tp : go_object objs m → go_object objs m' → obj_Id m' = obj_Id m → is_exported (o_name m) = false →
  o_pkg m = Some tp → is_exported (o_name m') = false ∧ (∀ tp', o_pkg m' = Some tp' → tp_path tp' = tp_path tp).
Proof.
  intros [N1 _ _ P1 _] [N2 _ _ P2 _] Hid Hx Hp. unfold obj_Id, type_id in Hid. rewrite Hp, Hx in Hid. rewrite Hp in P1. destruct P1 as [P1 _].
  cbn in Hid. destruct (String.eqb_spec (tp_path tp) "") as [|_]; [done|].
  destruct (is_exported (o_name m')) eqn:Hx'.
  - exfalso. rewrite Hid in N2. rewrite !count_app in N2. cbn in N2. lia.
  - split; [done|]. intros tp' Hp'. rewrite Hp' in Hid, P2. cbn in Hid. destruct P2 as [P2 _].
    destruct (String.eqb_spec (tp_path tp') "") as [|_]; [done|]. by apply dot_split in Hid as [? _].
Qed.
Theorem C33_unexported_filter_partial : ∀ env u crc mset constraint_ok objs d e t i p q,
  method_sets env mset objs → named t → is_interface env t = false → named i →
  describes env u crc mset d t p → describes env u crc mset e i q →
  own_unexported env mset t p → own_unexported env mset i q →
  satisfies env mset constraint_ok t i → passes env mset constraint_ok d e = true.
Proof.
  intros env u crc mset cok objs d e t i p q Hms Hnt Ht Hn Hd He Hot Hoi Hs.
  rewrite (passes_spec env u crc mset cok objs Hms d e t i p q Hd He Hnt Ht Hn). split; [done|]. intros (m & Hm & Hx).
  assert (Him : m ∈ intuitive_method_set env mset i) by (by apply (intuitive_has env mset objs Hms _ _ Hn)).
  destruct (satisfies_methods env mset cok objs Hms t i Hnt Ht Hs Hn m Him) as (m' & Hm' & Hid & _).
  destruct (Hoi m Hm Hx) as (tp & Hp & <-).
  destruct (same_id_package objs m m' tp (intuitive_object _ _ _ Hms _ _ Him) (intuitive_object _ _ _ Hms _ _ Hm') Hid Hx Hp) as [Hx' Hp'].
  apply (intuitive_has env mset objs Hms _ _ Hnt) in Hm'. destruct (Hot m' Hm' Hx') as (tp' & Htp' & <-). by apply Hp'.
Qed.
Print Assumptions C33_unexported_filter_partial.

(** *** The search *)
Section Search.
Context (env : tenv) (u : unicode) (crc : string → N) (mset : ty → list obj) (constraint_ok : ty → ty → bool) (objs : nat → option obj).
Context (package_level : gpkg → obj → bool) (scope_objects : gpkg → list obj) (root version : string) (h : pheap) (all proj : ptab).
Context (Han : analysable env mset objs scope_objects h all proj).
Notation candidate := (candidate env mset package_level scope_objects root version h).
Notation distinct := (distinct_symbols env mset package_level scope_objects root version h).
Notation expected := (expected env mset constraint_ok package_level scope_objects root version h).
Notation expected_of := (expected_of env mset constraint_ok package_level scope_objects root version h).
Notation search o := (add_implementation_relationships env u crc mset constraint_ok package_level scope_objects o h proj all).
Notation extract o := (Impls.extract env u crc mset package_level scope_objects o h).
Notation encodable c := (∀ m, has_method env mset (c_type c) m → ∃ e, encode u (o_type m) = Ok e).

(** the orders of iteration over maps are permutations of their entries *)
Definition iterates (o : orders) : Prop := search_orders o ∧ defs_order h o.

Lemma an_exports g : initial_tables h all proj g → ∀ key q p, proj !! key = Some q ∨ all !! key = Some q ∧ proj !! key = None → h !! q = Some p →
  exports_ok objs scope_objects g p.
Proof.
  intros [Hi _] key q p [Hq|[Hq Hn]] Hh Hinfo _.
  - destruct (an_proj _ _ _ _ _ _ _ Han _ _ Hq) as (p' & m & ti & Hh' & _ & _ & Hti). congruence.
  - destruct (an_all _ _ _ _ _ _ _ Han _ _ Hq) as (p' & m & Hh' & <- & _). assert (p' = p) as -> by congruence. split; [eexists; by eapply Hi|].
    intros o Ho. by eapply (an_scope _ _ _ _ _ _ _ Han).
Qed.
Lemma an_keyed_proj : keyed h proj.
Proof. intros k q Hq. destruct (an_proj _ _ _ _ _ _ _ Han _ _ Hq) as (p & m & ti & ? & ? & ? & _). eauto. Qed.

Lemma whole g o k deps : initial_tables h all proj g → iterates o → caches_ok env objs g root version k → dependencies all proj deps →
  match search o g k with
  | Panic _ => ∃ c, (candidate g proj c ∨ candidate g deps c) ∧ ¬ encodable c
  | Ok (g', k', exts, (n, total)) =>
      same_tables g g' ∧ caches_ok env objs g root version k' ∧ n = total ∧
      (distinct g proj → distinct g deps →
        (∀ id pos i, recorded g' id pos i → relationships_are (i_relationships i) (expected g proj deps id pos)) ∧
        ext_spec env mset constraint_ok package_level scope_objects root version h g proj deps exts)
  end.
Proof.
  intros Hi [Ho Hd] Hk Hdeps. assert (deps = remote_packages all proj) as ->.
  { apply map_eq. intros key. apply option_eq. intros q. pose proof (Hdeps key q). pose proof (remote_dependencies all proj key q). tauto. }
  exact (search_ok env u crc mset constraint_ok objs (an_methods _ _ _ _ _ _ _ Han) package_level scope_objects root version h g o proj all k
    Ho Hd (an_all _ _ _ _ _ _ _ Han) an_keyed_proj (an_exports g Hi) (proj2 Hi) Hk).
Qed.

(** C34: after the search, every symbol of the tables is as before, except that it has an
    implementation relationship to exactly the expected symbols, in order, once each. *)
Theorem C34_exact : ∀ g o k deps g' k' exts count,
  initial_tables h all proj g → iterates o → caches_ok env objs g root version k → dependencies all proj deps →
  distinct g proj → distinct g deps → search o g k = Ok (g', k', exts, count) →
  same_tables g g' ∧ ∀ id pos i, recorded g' id pos i → relationships_are (i_relationships i) (expected g proj deps id pos).
Proof.
  intros g o k deps g' k' exts [n total] Hi Ho Hk Hdeps D1 D2 E. pose proof (whole g o k deps Hi Ho Hk Hdeps) as H. rewrite E in H.
  destruct H as (H1 & _ & _ & H2). destruct (H2 D1 D2). done.
Qed.

Lemma same_info_eq i j : same_info i j → i_relationships i = i_relationships j → i = j.
Proof. destruct i, j. intros (E1 & E2 & E3 & E4 & E5 & E6). cbn in *. congruence. Qed.
Lemma same_info_trans i j l : same_info i j → same_info i l → same_info j l.
Proof. intros (E1 & E2 & E3 & E4 & E5 & E6) (F1 & F2 & F3 & F4 & F5 & F6). repeat split; congruence. Qed.
Lemma ext_spec_in g deps e1 e2 : distinct g deps →
  ext_spec env mset constraint_ok package_level scope_objects root version h g proj deps e1 →
  ext_spec env mset constraint_ok package_level scope_objects root version h g proj deps e2 → ∀ i, i ∈ e1 → i ∈ e2.
Proof.
  intros Hd (A1 & A2 & A3) (B1 & B2 & B3) i Hin. destruct (A1 i Hin) as (c & b & Hc & Hw & Hs & Hb & Hsame & He & Hr).
  destruct (B2 c Hc Hw He) as (j & Hj & Hjs). destruct (B1 j Hj) as (c' & b' & Hc' & Hw' & Hs' & Hb' & Hsame' & _ & Hr').
  assert (c' = c) as -> by (apply Hd; [done|done|congruence]).
  assert (b' = b) as ->.
  { unfold base_info in Hb, Hb'. destruct (p_info (c_pkg c)); [|congruence]. apply get_info_recorded in Hb, Hb'. congruence. }
  assert (i = j) as ->; [|done]. apply same_info_eq; [by eapply same_info_trans|]. by eapply relationships_unique.
Qed.
Lemma NoDup_map {A B} (f : A → B) l : NoDup (map f l) → NoDup l.
Proof. induction l as [|x l IH]; cbn; [constructor|]. intros [H1 H2]%NoDup_cons. constructor; [|auto]. intros Hx. apply H1. apply elem_of_list_fmap. by exists x. Qed.

(** ... independently of the orders of iteration over maps and of the state of the caches *)
Theorem C34_order_independent : ∀ g o1 o2 k1 k2 deps g1 g2 k1' k2' exts1 exts2 count1 count2,
  initial_tables h all proj g → iterates o1 → iterates o2 → caches_ok env objs g root version k1 → caches_ok env objs g root version k2 →
  dependencies all proj deps → distinct g proj → distinct g deps →
  search o1 g k1 = Ok (g1, k1', exts1, count1) → search o2 g k2 = Ok (g2, k2', exts2, count2) → g1 = g2 ∧ exts1 ≡ₚ exts2.
Proof.
  intros g o1 o2 k1 k2 deps g1 g2 k1' k2' exts1 exts2 [n1 t1] [n2 t2] Hi Ho1 Ho2 Hk1 Hk2 Hdeps D1 D2 E1 E2.
  pose proof (whole g o1 k1 deps Hi Ho1 Hk1 Hdeps) as H1. rewrite E1 in H1. destruct H1 as (A1 & _ & _ & X1). destruct (X1 D1 D2) as [B1 C1]. clear X1.
  pose proof (whole g o2 k2 deps Hi Ho2 Hk2 Hdeps) as H2. rewrite E2 in H2. destruct H2 as (A2 & _ & _ & X2). destruct (X2 D1 D2) as [B2 C2]. clear X2.
  split.
  - destruct g1 as [s1 p1], g2 as [s2 p2]. destruct A1 as [P1 A1], A2 as [P2 A2]. cbn in P1, P2. f_equal; [|congruence]. apply map_eq. intros id.
    specialize (A1 id). specialize (A2 id). cbn [g_symbols] in A1, A2.
    destruct (g_symbols g !! id) as [[p t]|], (s1 !! id) as [[q1 t1']|] eqn:S1, (s2 !! id) as [[q2 t2']|] eqn:S2; try done.
    destruct A1 as [<- A1], A2 as [<- A2]. f_equal. f_equal. apply map_eq. intros pos. specialize (A1 pos). specialize (A2 pos).
    destruct (t !! pos) as [i|], (t1' !! pos) as [i1|] eqn:T1, (t2' !! pos) as [i2|] eqn:T2; try done. f_equal.
    apply same_info_eq; [by eapply same_info_trans|]. eapply relationships_unique; [apply (B1 id pos)|apply (B2 id pos)|done]; by eexists _, _.
  - apply NoDup_Permutation; [eapply NoDup_map, C1|eapply NoDup_map, C2|]. intros i. split; by apply (ext_spec_in g deps).
Qed.

(** C35: the external symbols are exactly the concrete types of dependencies that have a
    relationship to an interface of the project, once each, with exactly those relationships. *)
Theorem C35_external_symbols : ∀ g o k deps g' k' exts count,
  initial_tables h all proj g → iterates o → caches_ok env objs g root version k → dependencies all proj deps →
  distinct g proj → distinct g deps → search o g k = Ok (g', k', exts, count) →
  (∀ info, info ∈ exts → ∃ c b, candidate g deps c ∧ is_interface env (c_type c) = false ∧ i_symbol info = c_symbol c ∧ base_info g c b ∧ same_info b info ∧
     (∃ s, expected_of g proj deps c s) ∧ relationships_are (i_relationships info) (expected_of g proj deps c)) ∧
  (∀ c, candidate g deps c → is_interface env (c_type c) = false → (∃ s, expected_of g proj deps c s) → ∃ info, info ∈ exts ∧ i_symbol info = c_symbol c) ∧
  NoDup (map i_symbol exts).
Proof.
  intros g o k deps g' k' exts [n total] Hi Ho Hk Hdeps D1 D2 E. pose proof (whole g o k deps Hi Ho Hk Hdeps) as H. rewrite E in H.
  destruct H as (H1 & _ & _ & H2). by destruct (H2 D1 D2).
Qed.

(** C36: the interfaces and the concrete types that are compared are the candidates. *)
Theorem C36_candidates : ∀ g o k pkgs new st,
  (pkgs = proj ∨ dependencies all proj pkgs) → initial_tables h all proj g → iterates o → caches_ok env objs g root version k →
  extract o g pkgs new k = Ok st →
  (∀ s, is_Some (x_ifaces st !! s) ↔ ∃ c, candidate g pkgs c ∧ is_interface env (c_type c) = true ∧ c_symbol c = s) ∧
  (∀ s, is_Some (x_concretes st !! s) ↔ ∃ c, candidate g pkgs c ∧ is_interface env (c_type c) = false ∧ c_symbol c = s) ∧
  (∀ s d, x_ifaces st !! s = Some d ∨ x_concretes st !! s = Some d → ∃ c, candidate g pkgs c ∧ c_symbol c = s ∧ d_symbol d = s ∧
     d_named d = c_type c ∧ d_pkg d = p_path (c_pkg c) ∧
     ∀ name s', (∃ cl, d_methods d !! name = Some (cl, s')) ↔
       ∃ m info, has_method env mset (c_type c) m ∧ obj_Id m = name ∧ resolves env root version g m (Found info) ∧ i_symbol info = s').
Proof.
  intros g o k pkgs new st Hp Hi [Ho Hd] Hk E. pose proof (an_methods _ _ _ _ _ _ _ Han) as Hms.
  pose proof (extract_ok env u crc mset objs Hms package_level scope_objects root version h g o pkgs new k Hd (oo_packages o Ho)) as H.
  match type of H with ?A → _ => assert (HA : A) end.
  { intros key q p Hq Hh. eapply (an_exports g Hi); [|exact Hh]. destruct Hp as [->|Hdeps]; [by left|right; by apply Hdeps]. }
  specialize (H HA Hk). rewrite E in H. destruct H as (C & (_ & _ & [R1 F1] & [R2 F2]) & HC). split; [|split].
  - destruct F1 as (A1 & A2 & _). intros s. split.
    + intros [d Hd']. destruct (A1 s d Hd') as (c & Hc & Hs & Hw & _). exists c. by rewrite <- HC.
    + intros (c & Hc & Hw & <-). apply A2; [by apply HC|done].
  - destruct F2 as (A1 & A2 & _). intros s. split.
    + intros [d Hd']. destruct (A1 s d Hd') as (c & Hc & Hs & Hw & _). exists c. by rewrite <- HC.
    + intros (c & Hc & Hw & <-). apply A2; [by apply HC|done].
  - intros s d Hsd. assert (X : ∃ c new lo hi, c ∈ C ∧ c_symbol c = s ∧ def_of env u crc mset root version g new lo hi c d).
    { destruct Hsd as [Hsd|Hsd]; [destruct (proj1 F1 s d Hsd) as (c & Hc & Hs & _ & _ & Hdef)|destruct (proj1 F2 s d Hsd) as (c & Hc & Hs & _ & _ & Hdef)]; by eexists c, _, _, _. }
    destruct X as (c & new' & lo & hi & Hc & Hs & Hdef). apply HC in Hc. exists c. split; [done|]. split; [done|].
    split; [rewrite <- Hs; apply (do_symbol _ _ _ _ _ _ _ _ _ _ _ _ Hdef)|]. destruct (do_describes _ _ _ _ _ _ _ _ _ _ _ _ Hdef) as (N1 & N2 & _).
    split; [done|]. split; [done|]. intros name s'. by apply (def_method_symbol env u crc mset objs Hms root version g _ _ _ _ _ (candidate_named _ _ _ _ _ _ _ _ _ _ Hc) Hdef).
Qed.

(** The search never panics when the signatures of the methods can be encoded, for instance when
    they are free of the exotic types of C37; the counter that the progress bar shows ends at its total. *)
Theorem C41_search_counter : ∀ g o k g' k' exts n total,
  initial_tables h all proj g → iterates o → caches_ok env objs g root version k →
  search o g k = Ok (g', k', exts, (n, total)) → n = total.
Proof.
  intros g o k g' k' exts n total Hi Ho Hk E. pose proof (whole g o k _ Hi Ho Hk (remote_dependencies all proj)) as H. rewrite E in H. by destruct H as (_ & _ & ? & _).
Qed.
Theorem C21_search_no_crash : ∀ g o k deps,
  initial_tables h all proj g → iterates o → caches_ok env objs g root version k → dependencies all proj deps →
  (∀ c m, candidate g proj c ∨ candidate g deps c → has_method env mset (c_type c) m → type_ok u (o_type m)) →
  ∃ r, search o g k = Ok r.
Proof.
  intros g o k deps Hi Ho Hk Hdeps Hok. pose proof (whole g o k deps Hi Ho Hk Hdeps) as H. destruct (search o g k) as [r|]; [eauto|].
  destruct H as (c & Hc & Hn). destruct Hn. intros m Hm. pose proof (type_ok_encodes u _ (Hok c m Hc Hm)) as He. unfold encode. rewrite He. eauto.
Qed.

(** The search meets the contract that the theorems about Index assume. *)
Lemma same_tables_caches g g' k : same_tables g g' → caches_ok env objs g root version k → caches_ok env objs g' root version k.
Proof.
  intros [_ Hs] [K1 K2 K3 K4]. split; [done| |done|done].
  assert (X : ∀ n, pkg_of objs g' n = pkg_of objs g n).
  { intros n. unfold pkg_of. destruct (objs n) as [o|]; [|done]. destruct (o_pkg o) as [tp|]; [|done]. specialize (Hs (tp_path tp)).
    destruct (g_symbols g !! tp_path tp) as [[p t]|], (g_symbols g' !! tp_path tp) as [[p' t']|]; try done. destruct Hs as [-> _]. done. }
  intros n s Hn. destruct (K2 n s Hn) as (o & tp & ds & H1 & H2 & H3 & H4 & H5). exists o, tp, ds. rewrite X. done.
Qed.
Theorem search_contract : ∀ o, iterates o →
  impl_contract env objs root version h all proj (impl_phase env u crc mset constraint_ok package_level scope_objects o h proj all).
Proof.
  intros o Ho g g' k' exts Hi E. unfold impl_phase in E. pose proof (whole g o _ _ Hi Ho (fresh_ok _ _ _ _ _) (remote_dependencies all proj)) as H.
  destruct (search o g (fresh_caches root version)) as [[[[g1 k1] e1] [n total]]|]; cbn in E; [|done]. injection E as <- <- <-.
  destruct H as (H1 & H2 & _). split; [done|]. by eapply same_tables_caches.
Qed.

(** *** Through a whole run of Index *)
Context (digest : string → string) (fs : fset) (objstr : obj → string) (mo : map_orders) (ps : list gpkg) (impl_error : string).
Context (po ao po2 : list string) (meta : metadata) (w : writer) (o : orders).
Context (Hix : indexable objs fs h all proj ps) (Hmo : SpecIndex.orders_ok mo).
Context (Hpo : key_order proj po) (Hao : key_order all ao) (Hpo2 : key_order proj po2) (Ho : iterates o).
Notation phase := (impl_phase env u crc mset constraint_ok package_level scope_objects o h proj all).
Notation run := (Index.index digest env fs h objstr mo w phase impl_error root version false meta (LoadOk all proj) po ao po2).

(** Indexing a type-checked project with the search never crashes. *)
Theorem C21_run_no_crash : ∀ deps, dependencies all proj deps →
  (∀ g c m, initial_tables h all proj g → candidate g proj c ∨ candidate g deps c → has_method env mset (c_type c) m → type_ok u (o_type m)) →
  ∃ msgs err, run = (msgs, Returned err).
Proof.
  intros deps Hdeps Hok. apply (C21_index_no_crash digest env objs fs h objstr mo root version all proj ps phase impl_error po ao po2 false meta w Hix Hmo Hpo Hao Hpo2 (search_contract o Ho)).
  intros _ g Hg. destruct (C21_search_no_crash g o (fresh_caches root version) deps Hg Ho (fresh_ok _ _ _ _ _) Hdeps (λ c m, Hok g c m Hg)) as [r Hr].
  unfold impl_phase. rewrite Hr. by eexists.
Qed.

(** C34, C35: of a successful run: the recorded symbols of a file are in its document with exactly
    the expected relationships, and the external symbols are those of C35.  g0: the tables after the
    first pass, described by C05-C11. *)
Theorem C34_documents : ∀ deps msgs, dependencies all proj deps → run = (msgs, Returned None) →
  ∃ g0, tables_ok digest env fs h all ps g0 ∧ (distinct g0 proj → distinct g0 deps →
    (∀ p f d name pos j, document_of ps (documents msgs) p f d → file_of fs f name → recorded g0 (p_path p) pos j → fs_file fs pos = Some name →
       ∃ i, i ∈ d_symbols d ∧ same_info j i ∧ relationships_are (i_relationships i) (expected g0 proj deps (p_path p) pos)) ∧
    ext_spec env mset constraint_ok package_level scope_objects root version h g0 proj deps (externals msgs)).
Proof.
  intros deps msgs Hdeps Hrun.
  destruct (success digest env objs fs h objstr mo root version all proj ps phase impl_error po ao po2 false meta w Hix Hmo Hpo Hao Hpo2 (search_contract o Ho) msgs Hrun)
    as (ds & exts & g0 & g & k & -> & Htab & Hs & Hsame & Hds).
  exists g0. split; [done|]. intros D1 D2. pose proof (tables_initial digest env fs h all proj ps g0 Htab (ix_order _ _ _ _ _ _ Hix)) as Hi.
  unfold searched, impl_phase in Hs. pose proof (whole g0 o _ deps Hi Ho (fresh_ok _ _ _ _ _) Hdeps) as Hw.
  destruct (search o g0 (fresh_caches root version)) as [[[[g1 k1] e1] [n total]]|]; cbn in Hs; [|done]. injection Hs as -> -> ->.
  destruct Hw as (_ & _ & _ & Hw). destruct (Hw D1 D2) as [Hrel Hext]. split.
  - intros p f d name pos j (n' & Hn & Hd) Hname (p0 & t0 & Hg0 & Hj) Hpos.
    assert (Hdocs : documents (MMeta meta :: map MDoc ds ++ map MExt exts) = ds).
    { unfold documents. cbn [omap list_omap]. rewrite omap_app. rewrite <- (List.app_nil_r ds) at 2. f_equal.
      - clear. induction ds as [|x l IH]; [done|]. cbn. by rewrite IH.
      - clear. induction exts as [|x l IH]; [done|]. exact IH. }
    rewrite Hdocs in Hd. pose proof (Forall2_lookup_lr _ _ _ _ _ _ Hds Hn Hd) as Hdoc. cbn [fst snd] in Hdoc.
    destruct Hdoc as (ti & tbl & st & sym & name' & torder & lorder & Hti & Hname' & Hg & _ & _ & Hto & _ & ->).
    assert (name' = name) as -> by (unfold file_of in *; congruence).
    destruct Hsame as [_ Hsame]. pose proof (Hsame (p_path p)) as Hp. rewrite Hg0, Hg in Hp. destruct Hp as [-> Hp]. specialize (Hp pos). rewrite Hj in Hp.
    destruct (tbl !! pos) as [i|] eqn:Ei; [|done]. exists i. split; [|split; [done|]].
    + cbn [d_symbols to_document]. apply elem_of_app. left. apply elem_of_list_fmap. exists (pos, i). split; [done|]. unfold symbols_for_file.
      apply elem_of_list_filter. split; [done|]. rewrite Hto. by apply elem_of_map_to_list.
    + apply Hrel. by exists p, tbl.
  - assert (externals (MMeta meta :: map MDoc ds ++ map MExt exts) = exts) as ->; [|done].
    unfold externals. cbn [omap list_omap]. rewrite omap_app.
    assert (∀ l, omap (λ m, match m with MExt i => Some i | _ => None end) (map MDoc l) = []) as ->.
    { clear. induction l as [|x l IH]; [done|]. exact IH. }
    cbn [app]. clear. induction exts as [|x l IH]; [done|]. cbn. by rewrite IH.
Qed.
End Search.
Print Assumptions C21_run_no_crash.
Print Assumptions C34_documents.
Print Assumptions C34_exact.
Print Assumptions C34_order_independent.
Print Assumptions C35_external_symbols.
Print Assumptions C36_candidates.
Print Assumptions C41_search_counter.
Print Assumptions C21_search_no_crash.
Print Assumptions search_contract.
