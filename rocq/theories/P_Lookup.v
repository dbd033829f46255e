(** Proofs about lookup.go: caches never change an answer. *)
From Coq Require Import Ascii String.
From stdpp Require Import prelude strings gmap.
From Verif Require Import GoStr Scip GoTypes Ast Packages Symbols Lookup SpecSymbol SpecLookup P_Symbols.
Open Scope string_scope.
Open Scope list_scope.

Lemma count_app c s t : count_char c (s +:+ t) = count_char c s + count_char c t.
Proof. induction s as [|a s IH]; [done|]. rewrite app_cons. cbn. rewrite IH. lia. Qed.
Lemma count_zero_forallb c s : count_char c s = 0 → str_forallb (λ a, negb (Ascii.eqb a c)) s = true.
Proof. induction s as [|a s IH]; [done|]. cbn. destruct (Ascii.eqb a c); [discriminate|]. cbn. auto. Qed.

(** splitting at the last dot *)
Lemma dot_split p n p' n' : count_char "." n = 0 → count_char "." n' = 0 →
  p +:+ "." +:+ n = p' +:+ "." +:+ n' → p = p' ∧ n = n'.
Proof.
  intros H1 H2 H.
  assert (slen p = slen p') as Hl.
  { assert (last_index "." (p +:+ "." +:+ n) = Some (slen p)) as E1.
    { apply last_index_app_sep. by apply count_zero_forallb. }
    assert (last_index "." (p' +:+ "." +:+ n') = Some (slen p')) as E2.
    { apply last_index_app_sep. by apply count_zero_forallb. }
    congruence. }
  destruct (app_inj_len _ _ _ _ Hl H) as [-> H']. cbn in H'. by injection H' as ->.
Qed.

(** the universe type names *)
Definition univ_id (s : string) : Prop := ∃ n, count_char "." n = 0 ∧ s = "_." +:+ n.

Lemma go_object_skipped objs o : go_object objs o → univ_id (obj_Id o) → o_pkg o = None.
Proof.
  intros [Hn _ _ Hp _] (n & Hc & He). destruct (o_pkg o) as [tp|] eqn:Hpk; [|done].
  destruct Hp as [Hp1 Hp2]. unfold obj_Id, type_id in He. rewrite Hpk in He. cbn in He.
  destruct (is_exported (o_name o)) eqn:Hx.
  - rewrite He in Hn. change ("_." +:+ n) with ("_" +:+ "." +:+ n) in Hn. rewrite !count_app in Hn. cbn in Hn. lia.
  - destruct (String.eqb_spec (tp_path tp) "") as [|_]; [done|].
    change ("_." +:+ n) with ("_" +:+ "." +:+ n) in He.
    apply dot_split in He as [? _]; done.
Qed.

(** the package an object is composed with *)
Definition pkg_of (objs : nat → option obj) (g : global) (k : nat) : option gpkg :=
  match objs k with
  | Some o => match o_pkg o with
              | Some tp => fst <$> g_symbols g !! tp_path tp
              | None => None
              end
  | None => None
  end.

Record caches_ok (env : tenv) (objs : nat → option obj) (g : global) (path version : string) (k : caches) : Prop :=
  CachesOk {
    ko_skip : ∀ s, s ∈ k_skipped k → univ_id s;
    ko_memo : memo_ok env objs (pkg_of objs g) (k_composer k);
    ko_path : c_default_path (k_composer k) = path;
    ko_version : c_default_version (k_composer k) = version }.

Lemma fresh_ok env objs g path version : caches_ok env objs g path version (fresh_caches path version).
Proof. split; [|by intros k s|done|done]. intros s. cbn. rewrite elem_of_empty. done. Qed.

Lemma compose_defaults env c p o :
  c_default_path (compose env c p o).2 = c_default_path c ∧
  c_default_version (compose env c p o).2 = c_default_version c.
Proof.
  unfold compose. destruct o as [o|]; [|done]. destruct (o_pkg o); [|done].
  destruct (assoc_nat _ _); [done|]. destruct (o_pkg (origin o)); [|done].
  by destruct (describe env _ _).
Qed.

Lemma compose_call_ok objs g p o tp t : go_object objs o → o_pkg o = Some tp →
  g_symbols g !! tp_path tp = Some (p, t) → call_ok objs (pkg_of objs g) (Some p, Some o).
Proof.
  intros [_ Ho Hp _ _] Hpk Hg o' [= <-]. split; [done|]. cbn. unfold pkg_of. rewrite Ho.
  rewrite Hpk in Hp. cbn in Hp. destruct (o_pkg (origin o)) as [tp'|]; [|done].
  cbn in Hp. injection Hp as Hp. rewrite Hp, Hg. done.
Qed.

Lemma compose_caches_ok env objs g path version k p o tp t :
  caches_ok env objs g path version k → go_object objs o → o_pkg o = Some tp →
  g_symbols g !! tp_path tp = Some (p, t) →
  caches_ok env objs g path version (Caches (k_skipped k) (compose env (k_composer k) (Some p) (Some o)).2).
Proof.
  intros [H1 H2 H3 H4] Ho Hpk Hg. destruct (compose_defaults env (k_composer k) (Some p) (Some o)) as [E1 E2].
  split; cbn [k_composer k_skipped]; [done| |congruence|congruence].
  apply (memo_ok_step env objs (pkg_of objs g) _ (Some p, Some o)); [done|].
  by eapply compose_call_ok.
Qed.

Lemma compose_any env objs g path version k p o tp t :
  caches_ok env objs g path version k → go_object objs o → o_pkg o = Some tp →
  g_symbols g !! tp_path tp = Some (p, t) →
  (compose env (k_composer k) (Some p) (Some o)).1 = composed env path version p o.
Proof.
  intros [_ Hm E1 E2] Ho Hpk Hg. unfold composed.
  destruct (compose_call_ok objs g p o tp t Ho Hpk Hg o eq_refl) as [Hobj Hp]. cbn in Hp.
  unfold compose at 1 2. rewrite Hpk. cbn [c_memo new_composer assoc_nat].
  assert (Hpack : ∀ q, pack (k_composer k) q = pack (new_composer path version) q).
  { intros q. by apply pack_eq. }
  destruct (assoc_nat (o_id (origin o)) (c_memo (k_composer k))) as [s|] eqn:Ha.
  - destruct (Hm _ _ Ha) as (o' & tp' & ds & H1 & H2 & H3 & H4 & H5).
    assert (o' = origin o) as -> by congruence. rewrite H2, H3. cbn.
    destruct ds as [|d ds]; [done|]. cbn. rewrite H5. rewrite <- Hp. by rewrite Hpack.
  - destruct (o_pkg (origin o)); [|done]. destruct (describe env _ (origin o)); [done|].
    cbn [fst]. unfold compose. by rewrite <- Hpack.
Qed.

Lemma lookup_in_package_ok env objs g path version k tp o :
  caches_ok env objs g path version k → go_object objs o → o_pkg o = Some tp →
  caches_ok env objs g path version
    (Caches (k_skipped k) (lookup_in_package env g (k_composer k) tp o).2) ∧
  (lookup_in_package env g (k_composer k) tp o).1 =
  (lookup_in_package env g (new_composer path version) tp o).1.
Proof.
  intros Hk Ho Hpk. unfold lookup_in_package. destruct k as [sk ck].
  destruct (String.eqb _ _); [done|]. destruct (first_some _ _); [done|].
  destruct (g_symbols g !! tp_path tp) as [[p t]|] eqn:Hg; [|done].
  assert (E := compose_any _ _ _ _ _ _ _ _ _ _ Hk Ho Hpk Hg).
  assert (K := compose_caches_ok _ _ _ _ _ _ _ _ _ _ Hk Ho Hpk Hg).
  unfold composed in E. cbn [k_composer k_skipped] in *.
  destruct (compose env ck (Some p) (Some o)) as [s c] eqn:E1.
  destruct (compose env (new_composer path version) (Some p) (Some o)) as [s' c'] eqn:E2.
  cbn [fst snd] in *. subst s'. by destruct (String.eqb s "").
Qed.

Lemma universe_error_Error o : universe_object o → ∀ s, o_kind o = OFunc s → is_error_Error o = true.
Proof.
  intros [[H|[H|[H|H]]] _|tn Hk Ho Hn Ht Hp] s Hs; try congruence.
  unfold is_error_Error, origin. rewrite Hk, Ho. cbn. rewrite Hk, Hn, Ht, Hp. done.
Qed.

(** the main lemma: caches stay consistent and the answer is the fresh one *)
Lemma lookup_ok env objs g path version k o :
  caches_ok env objs g path version k → go_object objs o →
  ∃ r k', get_symbol_of_object env g k o = Ok (r, k') ∧
    caches_ok env objs g path version k' ∧
    answer env g (fresh_caches path version) o = Ok r.
Proof.
  intros Hk Ho. unfold answer, get_symbol_of_object. cbn [k_skipped fresh_caches].
  rewrite (decide_False (P := obj_Id o ∈ (∅ : gset string))) by (apply not_elem_of_empty).
  destruct (decide (obj_Id o ∈ k_skipped k)) as [Hs|Hs].
  - apply (ko_skip _ _ _ _ _ _ Hk) in Hs. pose proof (go_object_skipped _ _ Ho Hs) as Hpk.
    destruct Ho as [_ _ _ Hp Hkd]. rewrite Hpk in *.
    pose proof (universe_error_Error _ Hp) as He.
    eexists Skip, k. split; [done|]. split; [done|].
    destruct (o_kind o) eqn:Hkind; try done.
    + by destruct (Hkd imported_path).
    + destruct Hp as [[H|[H|[H|H]]] _|tn Hk' _ _ _ _]; congruence.
    + by rewrite (He _ eq_refl).
  - destruct (o_pkg o) as [tp|] eqn:Hpk.
    + destruct (lookup_in_package_ok _ _ _ _ _ _ _ _ Hk Ho Hpk) as [H1 H2].
      destruct (lookup_in_package env g (k_composer k) tp o) as [r c] eqn:E1.
      cbn [k_composer fresh_caches].
      destruct (lookup_in_package env g (new_composer path version) tp o) as [r' c'] eqn:E2.
      cbn [fst snd] in *. subst r'.
      destruct (o_kind o) eqn:Hkind; try (by eexists _, _; split_and!).
      by destruct (go_kind _ _ Ho imported_path).
    + destruct Ho as [Hn _ _ Hp Hkd]. rewrite Hpk in *.
      pose proof (universe_error_Error _ Hp) as He.
      destruct (o_kind o) eqn:Hkind; try (by eexists _, _; split_and!).
      * by destruct (Hkd imported_path).
      * eexists _, _. split_and!; [done| |done]. destruct Hk as [K1 K2 K3 K4]. split; try done.
        intros s. cbn. rewrite elem_of_union, elem_of_singleton. intros [->|H]; [|auto].
        destruct Hp as [_ Hx|tn Hk' _ _ _ _]; [|congruence].
        exists (o_name o). split; [done|]. unfold obj_Id, type_id. rewrite Hpk, Hx. done.
      * destruct Hp as [[H|[H|[H|H]]] _|tn Hk' _ _ _ _]; congruence.
      * rewrite (He _ eq_refl). by eexists _, _; split_and!.
Qed.

Lemma run_call_ok env objs g path version k c :
  caches_ok env objs g path version k → go_call objs g c →
  ∃ k', run_call env g k c = Ok k' ∧ caches_ok env objs g path version k'.
Proof.
  intros Hk Hc. destruct c as [o|p o]; cbn in *.
  - destruct (lookup_ok _ _ _ _ _ _ _ Hk Hc) as (r & k' & -> & H & _). by exists k'.
  - destruct Hc as [Ho (tp & t & Hp & Hg)]. eexists. split; [done|]. by eapply compose_caches_ok.
Qed.
Lemma run_calls_ok env objs g path version h k :
  caches_ok env objs g path version k → Forall (go_call objs g) h →
  ∃ k', res_fold (run_call env g) k h = Ok k' ∧ caches_ok env objs g path version k'.
Proof.
  intros Hk Hh. revert k Hk. induction Hh as [|c h Hc Hh IH]; intros k Hk; [by exists k|].
  destruct (run_call_ok _ _ _ _ _ _ _ Hk Hc) as (k' & E & Hk'). cbn. rewrite E. cbn. by apply IH.
Qed.

Lemma answer_history env objs g path version h o :
  Forall (go_call objs g) h → go_object objs o →
  ∃ k r, after_calls env g path version h = Ok k ∧ answer env g k o = Ok r ∧
    answer env g (fresh_caches path version) o = Ok r.
Proof.
  intros Hh Ho. destruct (run_calls_ok env objs g path version h _ (fresh_ok _ _ _ _ _) Hh) as (k & E & Hk).
  destruct (lookup_ok _ _ _ _ _ _ _ Hk Ho) as (r & k' & E' & _ & F).
  exists k, r. split_and!; [done| |done]. unfold answer. by rewrite E'.
Qed.

Lemma get_info_recorded g id pos i : get_info_by_path g id pos = Some i ↔ recorded g id pos i.
Proof.
  unfold get_info_by_path, recorded, pget. split.
  - destruct (g_symbols g !! id) as [[p t]|]; [|done]. intros. by exists p, t.
  - intros (p & t & -> & H). done.
Qed.
Lemma get_info_unrecorded g id pos : get_info_by_path g id pos = None ↔ unrecorded g id pos.
Proof.
  split.
  - intros H i Hi. apply get_info_recorded in Hi. congruence.
  - intros H. destruct (get_info_by_path g id pos) as [i|] eqn:E; [|done].
    apply get_info_recorded in E. by destruct (H i).
Qed.

Lemma answer_resolves env objs g path version o r : go_object objs o →
  answer env g (fresh_caches path version) o = Ok r ↔ resolves env path version g o r.
Proof.
  intros Ho. unfold answer, get_symbol_of_object.
  rewrite (decide_False (P := obj_Id o ∈ k_skipped (fresh_caches path version))) by (apply not_elem_of_empty).
  pose proof (go_kind _ _ Ho) as Hpn. pose proof (go_pkg _ _ Ho) as Hpk.
  destruct (o_pkg o) as [tp|] eqn:Hp.
  - cbn [k_composer fresh_caches]. unfold lookup_in_package.
    remember (first_some _ _) as fsome eqn:Hfs. symmetry in Hfs. cbn in Hfs.
    split.
    + intros H.
      assert (Hlab : o_kind o = OLabel ∨ o_kind o = ONil → r = Skip).
      { intros [E|E]; rewrite E in H; by injection H as <-. }
      assert (E : (o_kind o = OLabel ∨ o_kind o = ONil) ∨ (o_kind o ≠ OLabel ∧ o_kind o ≠ ONil)).
      { destruct (o_kind o); auto. }
      destruct E as [E|[E1 E2]].
      { rewrite (Hlab E). by apply rs_label. }
      destruct (String.eqb_spec (tp_path tp) "unsafe") as [Eu|Eu].
      { assert (r = Skip) as -> by (destruct (o_kind o); try done; by injection H as <-). by eapply rs_unsafe. }
      destruct (get_info_by_path g (tp_path tp) (o_pos o)) as [i1|] eqn:G1.
      { subst fsome. assert (r = Found i1) as -> by (destruct (o_kind o); try done; by injection H as <-).
        by eapply rs_own; [| | | |apply get_info_recorded]. }
      apply get_info_unrecorded in G1.
      destruct (get_info_by_path g (tp_path tp +:+ ".test") (o_pos o)) as [i2|] eqn:G2.
      { subst fsome. assert (r = Found i2) as -> by (destruct (o_kind o); try done; by injection H as <-).
        by eapply rs_test; [| | | | |apply get_info_recorded]. }
      apply get_info_unrecorded in G2.
      destruct (get_info_by_path g (tp_path tp +:+ " [" +:+ tp_path tp +:+ ".test]") (o_pos o)) as [i3|] eqn:G3.
      { subst fsome. assert (r = Found i3) as -> by (destruct (o_kind o); try done; by injection H as <-).
        by eapply rs_variant; [| | | | | |apply get_info_recorded]. }
      apply get_info_unrecorded in G3. subst fsome.
      destruct (g_symbols g !! tp_path tp) as [[p t]|] eqn:Hg.
      * pose proof (eq_refl (composed env path version p o)) as Hcomp. unfold composed in Hcomp at 1.
        destruct (compose env (new_composer path version) (Some p) (Some o)) as [s c] eqn:Hc. cbn in Hcomp.
        destruct (String.eqb_spec s "") as [Es|Es].
        -- assert (r = LookupError) as -> by (destruct (o_kind o); try done; by injection H as <-).
           eapply rs_error; try done. intros p1 t1 Hpt. rewrite Hg in Hpt. injection Hpt as <- <-. congruence.
        -- assert (r = Found (bare_info s)) as -> by (destruct (o_kind o); try done; by injection H as <-).
           rewrite Hcomp. eapply rs_composed; try done. congruence.
      * assert (r = LookupError) as -> by (destruct (o_kind o); try done; by injection H as <-).
        eapply rs_error; try done. congruence.
    + intros H.
      assert (Hgen : o_kind o ≠ OLabel → o_kind o ≠ ONil → ∀ (x : lookup_result * composer), x.1 = r →
        (let! r := match o_kind o with
          | OPkgName _ => Panic "should never lookup PkgName"
          | OLabel | ONil => Ok (Skip, fresh_caches path version)
          | _ => let '(r, c') := x in Ok (r, Caches (k_skipped (fresh_caches path version)) c')
          end in Ok r.1) = Ok r).
      { intros E1 E2 [x c] <-. destruct (o_kind o) eqn:E; try done. by destruct (Hpn imported_path). }
      assert (Hgen' : ∀ (x : lookup_result * composer), x.1 = r → r = Skip →
        (let! r := match o_kind o with
          | OPkgName _ => Panic "should never lookup PkgName"
          | OLabel | ONil => Ok (Skip, fresh_caches path version)
          | _ => let '(r, c') := x in Ok (r, Caches (k_skipped (fresh_caches path version)) c')
          end in Ok r.1) = Ok r).
      { intros [x c] <- Hx. cbn in Hx. subst x. destruct (o_kind o) eqn:E; try done. by destruct (Hpn imported_path). }
      destruct H as [[E|E]|E|tp' E E'|tp' i K1 K2 E E' G1|tp' i K1 K2 E E' G1 G2|tp' i K1 K2 E E' G1 G2 G3
                    |tp' p t K1 K2 E E' G1 G2 G3 Hg Hc|tp' K1 K2 E E' G1 G2 G3 Hc];
        try (by rewrite E); try congruence; assert (tp' = tp) as -> by congruence.
      * apply Hgen'; [|done]. rewrite E'. done.
      * apply Hgen; [done..|]. destruct (String.eqb_spec (tp_path tp) "unsafe"); [done|].
        apply get_info_recorded in G1. rewrite G1 in Hfs. by subst fsome.
      * apply Hgen; [done..|]. destruct (String.eqb_spec (tp_path tp) "unsafe"); [done|].
        apply get_info_unrecorded in G1. apply get_info_recorded in G2. rewrite G1, G2 in Hfs. by subst fsome.
      * apply Hgen; [done..|]. destruct (String.eqb_spec (tp_path tp) "unsafe"); [done|].
        apply get_info_unrecorded in G1, G2. apply get_info_recorded in G3. rewrite G1, G2, G3 in Hfs. by subst fsome.
      * apply Hgen; [done..|]. destruct (String.eqb_spec (tp_path tp) "unsafe"); [done|].
        apply get_info_unrecorded in G1, G2, G3. rewrite G1, G2, G3 in Hfs. subst fsome.
        rewrite Hg. unfold composed in *.
        destruct (compose env (new_composer path version) (Some p) (Some o)) as [s c]. cbn in *.
        by destruct (String.eqb_spec s "").
      * apply Hgen; [done..|]. destruct (String.eqb_spec (tp_path tp) "unsafe"); [done|].
        apply get_info_unrecorded in G1, G2, G3. rewrite G1, G2, G3 in Hfs. subst fsome.
        destruct (g_symbols g !! tp_path tp) as [[p t]|]; [|done]. specialize (Hc p t eq_refl). unfold composed in *.
        destruct (compose env (new_composer path version) (Some p) (Some o)) as [s c]. cbn in *. by rewrite Hc.
  - assert (Hskip : (let! r := match o_kind o with
          | OPkgName _ => Panic "should never lookup PkgName"
          | OLabel | ONil => Ok (Skip, fresh_caches path version)
          | OConst | OBuiltin => Ok (Skip, fresh_caches path version)
          | OTypeName => Ok (Skip, Caches ({[obj_Id o]} ∪ k_skipped (fresh_caches path version)) (k_composer (fresh_caches path version)))
          | OFunc _ => if is_error_Error o then Ok (Skip, fresh_caches path version) else Panic "failed to create symbol for builtin obj"
          | _ => Panic "failed to create symbol for builtin obj"
          end in Ok r.1) = Ok Skip).
    { pose proof (universe_error_Error _ Hpk) as He. destruct (o_kind o) eqn:Hk; try done.
      - by destruct (Hpn imported_path).
      - destruct Hpk as [[H|[H|[H|H]]] _|tn Hk' _ _ _ _]; congruence.
      - by rewrite (He _ eq_refl). }
    rewrite Hskip. split.
    + intros [= <-]. by apply rs_universe.
    + intros H. inversion H; try congruence; subst; done.
Qed.
