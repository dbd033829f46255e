(** C85: the documents of the index do not depend on where the project is checked out. *)
From Coq Require Import Ascii String.
From stdpp Require Import prelude strings gmap relations sorting.
From Verif Require Import GoStr Scip GoTypes Ast Packages Symbols Document Lookup Pass1 Pass2 Paths Env Loader Index
  SpecSymbol SpecDecl SpecLookup SpecOcc SpecIndex P_Symbols P_Pass1 P_Lookup P_Pass2 P_Occ P_Index PropIndex P_Loader PropLoader
  Output Proto Cli PropCli Options PropPaths PropOptions Url PropUrl
  Quote Fingerprint SpecTypes P_Finger PropFinger Impls P_Rel P_Ident SpecImpl P_Filter P_Mem P_Extract P_Impl PropImpl PropDet PropCross PropPrecise PropFind
  PropModule Program PropEnd P_Once PropOnce SpecMove P_Move P_Move2 P_Move3 PropMove SpecElsewhere P_Elsewhere.
Open Scope string_scope.
Open Scope list_scope.

(** *** Specification *)
(** The second run: the same project in another directory (possibly with other flags, arguments and environment, as long as
    the options are the same but for the project root), with other map iteration orders, errors for other files, and messages.
    [el] gives for a directory or file of the first project where it is in the second. *)
Record same_elsewhere (el : string → string) (S S' : surroundings) (f f' : flags) : Prop := SameElsewhere {
  se_options : ∀ o o', make_options (su_machine S) f = Ok (Some o) → make_options (su_machine S') f' = Ok (Some o') → el_options (ro_index o) (ro_index o');
  se_packages : ∀ o o', make_options (su_machine S) f = Ok (Some o) → make_options (su_machine S') f' = Ok (Some o') →
    su_packages S' o' = match su_packages S o with inl e => inl e | inr (h0, roots) => inr (el_heap el h0, roots) end;
  se_paths : ∀ o o' h0 roots, make_options (su_machine S) f = Ok (Some o) → make_options (su_machine S') f' = Ok (Some o') → su_packages S o = inr (h0, roots) →
    el_paths el (io_module_root (ro_index o)) (io_module_root (ro_index o')) (su_fs S) h0 ∧
    ∀ q p m, h0 !! q = Some p → p_module p = Some m → el_near el (io_module_root (ro_index o)) (io_module_root (ro_index o')) m;
  se_fs : el_fset el (su_fs S) (su_fs S');
  (** the go.mod files have the same module paths and versions; import paths have the same repositories *)
  se_gomod : ∀ d, w_gomod (su_world S') (el d) = w_gomod (su_world S) d;
  se_repo : ∀ s, w_repo_root (su_world S') s = w_repo_root (su_world S) s;
  se_builtin : su_builtin S' = su_builtin S; se_env : su_env S' = su_env S; se_mset : su_mset S' = su_mset S;
  se_constraint : su_constraint S' = su_constraint S; se_unicode : su_unicode S' = su_unicode S;
  se_crc : su_crc S' = su_crc S; se_digest : su_digest S' = su_digest S; se_objstr : su_objstr S' = su_objstr S;
  se_level : ∀ p o, su_package_level S' (el_pkg el p) o = su_package_level S p o;
  se_scope : ∀ p, su_scope S' (el_pkg el p) = su_scope S p }.

(** *** Proofs *)
Section Load.
Context (el : string → string) (o o' : index_opts) (w w' : world).
Notation root := (io_module_root o).
Notation root' := (io_module_root o').
Notation K := (el_pkg el).
Notation H := (el_heap el).
Context (Hopt : el_options o o') (el_inj : ∀ a b, el a = el b → a = b) (el_empty : el "" = "").
Context (Hgm : ∀ d, w_gomod w' (el d) = w_gomod w d) (Hrr : ∀ s, w_repo_root w' s = w_repo_root w s).
Notation near := (el_near el root root').
Definition near_pkg (p : gpkg) : Prop := ∀ m, p_module p = Some m → near m.
Definition near_heap (h : pheap) : Prop := ∀ q p, h !! q = Some p → near_pkg p.
Lemma near_bare a b : near (bare_module a b).
Proof. cbn. rewrite el_empty. by split. Qed.
Lemma near_follow m : near m → near (follow_replace o m).
Proof.
  destruct m as [p v d g [[p1 v1 d1 g1 r1]|]]; [|done]. intros [_ H]. unfold follow_replace. cbn [m_replace m_version]. by destruct (String.eqb v1 "").
Qed.
Lemma el_empty_iff s : String.eqb (el s) "" = String.eqb s "".
Proof.
  destruct (String.eqb_spec s "") as [->|Hn]; [by rewrite el_empty|]. apply String.eqb_neq. intros E. apply Hn, el_inj. by rewrite E, el_empty.
Qed.
Lemma el_follow m : follow_replace o' (el_module el m) = el_module el (follow_replace o m).
Proof.
  destruct Hopt as (E1 & _). destruct m as [p v d g [[p1 v1 d1 g1 r1]|]]; [|done]. unfold follow_replace. cbn [el_module m_replace m_version]. rewrite E1. by destruct (String.eqb v1 "").
Qed.
Lemma el_resolve m : resolve_local w' (el_module el m) = res_map (el_module el) (resolve_local w m).
Proof.
  destruct m as [p v d g r]. unfold resolve_local. cbn [el_module m_path m_gomod]. rewrite el_empty_iff, Hgm. destruct (_ && _)%bool; [|done].
  destruct (w_gomod w g) as [| |path version]; [done|done|]. cbn [with_mpath with_version]. by destruct (String.eqb version "").
Qed.
Lemma near_resolve m m' : near m → resolve_local w m = Ok m' → near m'.
Proof.
  destruct m as [p v d g r]. intros Hn. unfold resolve_local. cbn [m_path m_gomod]. destruct (_ && _)%bool; [|by intros [= <-]].
  destruct (w_gomod w g) as [| |path version]; [by intros [= <-]|done|]. cbn [with_mpath with_version]. intros [= <-]. by destruct (String.eqb version "").
Qed.
Lemma el_normal m : near m → normalize_version o' w' (default_path (el_module el m)) = el_module el (normalize_version o w (default_path m)).
Proof.
  destruct Hopt as (E1 & E2 & _). destruct m as [p v d g r]. intros [Hn _]. unfold default_path. cbn [el_module m_path].
  destruct (String.eqb p "") eqn:Ep; unfold normalize_version; cbn [with_mpath m_version m_dir m_path m_gomod m_replace]; unfold has_same_repo_root; rewrite Hn, E1, E2, !Hrr;
    repeat match goal with |- context [if ?b then _ else _] => destruct b end; try done; by destruct (Semver.pseudo_version_rev v).
Qed.
Lemma near_normal m : near m → near (normalize_version o w (default_path m)).
Proof.
  intros Hn. assert (near (default_path m)) as Hd by (destruct m as [p v d g r]; unfold default_path; by destruct (String.eqb _ _)). revert Hd. generalize (default_path m). clear m Hn. intros m Hn.
  assert (∀ v, near (with_version m v)) as Hv by (intros; by destruct m). unfold normalize_version.
  repeat match goal with |- context [if ?b then _ else _] => destruct b end; try done. by destruct (Semver.pseudo_version_rev _).
Qed.
Lemma el_standard p : is_standard_lib (K p) = is_standard_lib p.
Proof. unfold is_standard_lib. cbn. by destruct (p_module p) as [[]|]. Qed.
Lemma el_normalize p : near_pkg p → normalize_package o' w' (K p) = res_map K (normalize_package o w p).
Proof.
  intros Hn. unfold normalize_package. destruct Hopt as (E1 & E2 & E3 & E4 & E5 & _). rewrite E5, E1, E2, E3, E4. destruct (io_driver_set o).
  { unfold with_module, el_pkg. cbn. by rewrite el_empty. }
  rewrite el_standard. change (p_path (K p)) with (p_path p). destruct (is_standard_lib p || io_indexing_stdlib o)%bool; cbn [p_module with_path with_module el_pkg].
  - assert (bare_module stdlib_module_path (io_go_version o) = el_module el (bare_module stdlib_module_path (io_go_version o))) as E0 by (cbn; by rewrite el_empty).
    rewrite E0 at 1. rewrite el_follow, el_resolve. destruct (resolve_local w _) as [m|] eqn:Er; [|done]. cbn [res_map res_bind].
    rewrite el_normal; [done|]. eapply near_resolve; [|exact Er]. apply near_follow, near_bare.
  - destruct (p_module p) as [m0|] eqn:Em; [|done]. cbn [fmap option_fmap option_map]. rewrite el_follow, el_resolve. destruct (resolve_local w _) as [m|] eqn:Er; [|done]. cbn [res_map res_bind].
    rewrite el_normal; [done|]. eapply near_resolve; [|exact Er]. apply near_follow, (Hn _ Em).
Qed.
Lemma near_normalize p p' : near_pkg p → normalize_package o w p = Ok p' → near_pkg p'.
Proof.
  intros Hn. unfold normalize_package. destruct (io_driver_set o).
  { intros [= <-] m. cbn. intros [= <-]. apply near_bare. }
  destruct (is_standard_lib p || io_indexing_stdlib o)%bool; cbn [p_module with_path with_module].
  - destruct (resolve_local w _) as [m|] eqn:Er; [|done]. cbn [res_bind]. intros [= <-] m1. cbn. intros [= <-]. apply near_normal. eapply near_resolve; [|exact Er]. apply near_follow, near_bare.
  - destruct (p_module p) as [m0|] eqn:Em; [|done]. destruct (resolve_local w _) as [m|] eqn:Er; [|done]. cbn [res_bind]. intros [= <-] m1. cbn. intros [= <-].
    apply near_normal. eapply near_resolve; [|exact Er]. apply near_follow, (Hn _ Em).
Qed.
Lemma el_hl (h : pheap) q : H h !! q = K <$> h !! q.
Proof. apply lookup_fmap. Qed.
Lemma el_skips h t p : skips (H h) t (K p) = skips h t p.
Proof.
  unfold skips, files_of. change (p_path (K p)) with (p_path p). destruct (t !! p_path p) as [q|]; [|done]. rewrite el_hl. by destruct (h !! q).
Qed.
Definition el_lstate (s : lstate) : lstate := LState (H (ls_heap s)) (ls_tab s) (ls_stack s).
Lemma lstep_near s s' : near_heap (ls_heap s) → lstep o w s s' → near_heap (ls_heap s').
Proof.
  intros Hn. destruct 1 as [h t p g st Hg Hs|h t p g g' order st Hg Hs Hno Ho]; [done|]. intros q p'. cbn. rewrite lookup_insert_Some.
  intros [[_ <-]|[_ E]]; [eapply near_normalize; [by eapply Hn|exact Hno]|by eapply Hn].
Qed.
Lemma el_lstep s s' : near_heap (ls_heap s) → lstep o w s s' → lstep o' w' (el_lstate s) (el_lstate s').
Proof.
  intros Hne. destruct 1 as [h t p g st Hg Hs|h t p g g' order st Hg Hs Hn Ho].
  - unfold el_lstate. cbn [ls_heap ls_tab ls_stack]. apply (L_skip _ _ _ _ _ (K g)); [by rewrite el_hl, Hg|by rewrite el_skips].
  - unfold el_lstate. cbn [ls_heap ls_tab ls_stack]. unfold el_heap at 2. rewrite fmap_insert.
    apply (L_visit _ _ _ _ _ (K g) (K g')); [by rewrite el_hl, Hg|by rewrite el_skips|rewrite el_normalize, Hn by (by eapply Hne); done|done].
Qed.
Lemma el_lstep_back s s' : near_heap (ls_heap s) → lstep o' w' (el_lstate s) s' → ∃ s1, s' = el_lstate s1 ∧ lstep o w s s1.
Proof.
  destruct s as [h t st]. intros Hne. unfold el_lstate at 1. cbn [ls_heap ls_tab ls_stack] in *. inversion 1 as [h1 t1 p g st1 Hg Hs|h1 t1 p g g' order st1 Hg Hs Hn Ho]; subst.
  - rewrite el_hl in Hg. destruct (h !! p) as [g0|] eqn:E; [|done]. injection Hg as <-. rewrite el_skips in Hs.
    exists (LState h t st1). split; [done|]. by apply (L_skip _ _ _ _ _ g0).
  - rewrite el_hl in Hg. destruct (h !! p) as [g0|] eqn:E; [|done]. injection Hg as <-. rewrite el_skips in Hs.
    rewrite el_normalize in Hn by (by eapply Hne). destruct (normalize_package o w g0) as [g1|] eqn:En; [|done]. injection Hn as <-.
    exists (LState (<[p := g1]> h) (<[p_path g1 := p]> t) (order ++ st1)). split.
    + unfold el_lstate. cbn [ls_heap ls_tab ls_stack]. unfold el_heap. by rewrite fmap_insert.
    + by apply (L_visit _ _ _ _ _ g0 g1).
Qed.
Lemma lsteps_near s s' : near_heap (ls_heap s) → rtc (lstep o w) s s' → near_heap (ls_heap s').
Proof. intros Hn Hr. induction Hr as [|s s1 s2 Hs _ IH]; [done|]. by eapply IH, lstep_near. Qed.
Lemma el_lsteps s s' : near_heap (ls_heap s) → rtc (lstep o w) s s' → rtc (lstep o' w') (el_lstate s) (el_lstate s').
Proof. intros Hn Hr. induction Hr as [|s s1 s2 Hs _ IH]; [done|]. eapply rtc_l; [by apply el_lstep|]. by eapply IH, lstep_near. Qed.
Lemma el_lsteps_back s s' : near_heap (ls_heap s) → rtc (lstep o' w') (el_lstate s) s' → ∃ s1, s' = el_lstate s1 ∧ rtc (lstep o w) s s1.
Proof.
  intros Hn Hr. remember (el_lstate s) as s0 eqn:E. revert s E Hn. induction Hr as [s0|s0 s1 s2 Hs _ IH]; intros s -> Hn.
  - by exists s.
  - apply el_lstep_back in Hs as (s3 & -> & Hs); [|done]. destruct (IH s3 eq_refl) as (s4 & -> & Hr); [by eapply lstep_near|]. exists s4. split; [done|]. by eapply rtc_l.
Qed.
Lemma el_add_imports h t p h' t' : near_heap h → add_imports o w h t p h' t' → add_imports o' w' (H h) t p (H h') t'.
Proof. intros Hn Ha. exact (el_lsteps (LState h t [p]) _ Hn Ha). Qed.
Lemma add_imports_near h t p h' t' : near_heap h → add_imports o w h t p h' t' → near_heap h'.
Proof. intros Hn Ha. exact (lsteps_near (LState h t [p]) _ Hn Ha). Qed.
Lemma el_add_imports_back h t p h' t' : near_heap h → add_imports o' w' (H h) t p h' t' → ∃ h1, h' = H h1 ∧ add_imports o w h t p h1 t'.
Proof.
  intros Hn Ha. destruct (el_lsteps_back (LState h t [p]) _ Hn Ha) as ([h1 t1 st1] & E & Hr). injection E as -> -> <-. by exists h1.
Qed.
Lemma el_load_loop h t pj ps h' t' pj' : near_heap h → load_loop o w h t pj ps h' t' pj' → load_loop o' w' (H h) t pj ps (H h') t' pj'.
Proof.
  intros Hn Hl. induction Hl as [|h t pj p ps h1 t1 g q h2 t2 pj2 Ha Hg Hq _ IH]; [constructor|].
  apply (LL_cons _ _ _ _ _ _ _ (H h1) t1 (K g) q); [by apply el_add_imports|by rewrite el_hl, Hg|done|]. by eapply IH, add_imports_near.
Qed.
Lemma el_load_loop_back h t pj ps h' t' pj' : near_heap h → load_loop o' w' (H h) t pj ps h' t' pj' → ∃ h1, h' = H h1 ∧ load_loop o w h t pj ps h1 t' pj'.
Proof.
  intros Hn Hl. remember (H h) as h0 eqn:E. revert h E Hn. induction Hl as [h0 t pj|h0 t pj p ps h1 t1 g q h2 t2 pj2 Ha Hg Hq _ IH]; intros h -> Hn.
  - exists h. split; [done|constructor].
  - apply el_add_imports_back in Ha as (h3 & -> & Ha); [|done]. destruct (IH h3 eq_refl) as (h4 & -> & Hl); [by eapply add_imports_near|]. rewrite el_hl in Hg.
    destruct (h3 !! p) as [g0|] eqn:E; [|done]. injection Hg as <-. exists h4. split; [done|]. by eapply (LL_cons _ _ _ _ _ _ _ h3 t1 g0 q).
Qed.
Lemma near_builtin h0 bp : near_heap h0 → near_heap (<[bp := builtin_pkg bp o]> h0).
Proof. intros Hn q p. rewrite lookup_insert_Some. intros [[_ <-]|[_ E]]; [|by eapply Hn]. intros m. cbn. intros [= <-]. apply near_bare. Qed.
Lemma el_builtin h0 bp : <[bp := builtin_pkg bp o']> (H h0) = H (<[bp := builtin_pkg bp o]> h0).
Proof. destruct Hopt as (_ & _ & E3 & _). unfold el_heap. rewrite fmap_insert. f_equal. unfold builtin_pkg, el_pkg. cbn. by rewrite el_empty, E3. Qed.
End Load.

Section Packages.
Context (el : string → string) (o o' : index_opts) (w w' : world).
Context (Hopt : el_options o o') (el_inj : ∀ a b, el a = el b → a = b) (el_empty : el "" = "").
Context (Hgm : ∀ d, w_gomod w' (el d) = w_gomod w d) (Hrr : ∀ s, w_repo_root w' s = w_repo_root w s).
Lemma el_default : el_options (with_default_version o) (with_default_version o').
Proof. destruct Hopt as (E1 & E2 & E3 & E4 & E5 & E6). unfold with_default_version. repeat split; try done. cbn. by rewrite E1. Qed.
Lemma el_load_packages bp h0 roots h all proj : near_heap el o o' h0 → load_packages o w bp h0 roots h all proj →
  load_packages o' w' bp (el_heap el h0) roots (el_heap el h) all proj.
Proof.
  unfold load_packages. intros Hn Hl. rewrite (el_builtin el (with_default_version o)) by (done || exact el_default).
  apply (el_load_loop el (with_default_version o) (with_default_version o') w w'); [exact el_default|done..| |done]. by apply near_builtin.
Qed.
Lemma el_load_packages_back bp h0 roots h' all proj : near_heap el o o' h0 → load_packages o' w' bp (el_heap el h0) roots h' all proj →
  ∃ h, h' = el_heap el h ∧ load_packages o w bp h0 roots h all proj.
Proof.
  unfold load_packages. intros Hn. rewrite (el_builtin el (with_default_version o)) by (done || exact el_default).
  apply (el_load_loop_back el (with_default_version o) (with_default_version o') w w'); [exact el_default|done..|]. by apply near_builtin.
Qed.
End Packages.
Lemma el_paths_load el o w bp root root' fs h0 roots h all proj : load_packages o w bp h0 roots h all proj → el_paths el root root' fs h0 → el_paths el root root' fs h.
Proof.
  intros Hl [E1 E2 E3 E4]. assert (Hk : ∀ q p f, h !! q = Some p → f ∈ p_syntax p → ∃ p0, h0 !! q = Some p0 ∧ f ∈ p_syntax p0).
  { intros q p f Hq Hf. destruct (load_loop_keeps _ _ _ _ _ _ _ _ _ Hl q p Hq) as (p0 & Hp & Hs). rewrite Hs in Hf.
    apply lookup_insert_Some in Hp as [[<- <-]|[_ Hp]]; [by apply elem_of_nil in Hf|]. by exists p0. }
  split; [done|done| |].
  - intros q p f n Hq Hf. destruct (Hk q p f Hq Hf) as (p0 & Hq0 & Hf0). by eapply E3.
  - intros q p f Hq Hf. destruct (Hk q p f Hq Hf) as (p0 & Hq0 & Hf0). by eapply E4.
Qed.
Lemma el_iteration_ok el h all proj it : iteration_ok (el_heap el h) all proj it →
  iteration_ok h all proj (Iteration (it_maps it) (el_orders el (it_search it)) (it_proj it) (it_all it) (it_proj2 it)).
Proof.
  intros (I1 & [I2 I3] & I4). split; [exact I1|]. split; [|exact I4]. split; [destruct I2 as [J1 J2 J3 J4 J5 J6]; split; [exact J1|exact J2|exact J3|exact J4|exact J5|exact J6]|]. intros q p ti ob Hq Hp.
  cbn [it_search el_orders or_defs]. apply (I3 q (el_pkg el p) ti ob); [by rewrite el_hl, Hq|done].
Qed.

Section Two.
Context (el : string → string) (S S' : surroundings) (f f' : flags) (Hse : same_elsewhere el S S' f f').
(** the second run, in the place of the first *)
Definition here : surroundings := Surroundings (su_machine S) (su_world S) (su_packages S) (su_builtin S) (su_fs S) (su_env S)
  (su_mset S) (su_constraint S) (su_package_level S) (su_scope S) (su_objstr S) (su_unicode S) (su_crc S) (su_digest S)
  (Iteration (it_maps (su_iteration S')) (el_orders el (it_search (su_iteration S'))) (it_proj (su_iteration S')) (it_all (su_iteration S')) (it_proj2 (su_iteration S')))
  (su_sys S') (su_noise S') (su_tool S).
Lemma here_same : same_surroundings S here.
Proof. by split. Qed.
Lemma near_all o o' h0 roots : make_options (su_machine S) f = Ok (Some o) → make_options (su_machine S') f' = Ok (Some o') → su_packages S o = inr (h0, roots) →
  near_heap el (ro_index o) (ro_index o') h0.
Proof. intros Ho Ho' Ha q p Hq m Hm. destruct (se_paths _ _ _ _ _ Hse o o' h0 roots Ho Ho' Ha) as [_ H]. by eapply H. Qed.
Lemma here_load o o' h0 roots h all proj : make_options (su_machine S) f = Ok (Some o) → make_options (su_machine S') f' = Ok (Some o') → su_packages S o = inr (h0, roots) →
  load_packages (ro_index o) (su_world S) (su_builtin S) h0 roots h all proj →
  load_packages (ro_index o') (su_world S') (su_builtin S') (el_heap el h0) roots (el_heap el h) all proj.
Proof.
  intros Ho Ho' Ha L. destruct (se_paths _ _ _ _ _ Hse o o' h0 roots Ho Ho' Ha) as [[E1 E2 _ _] _]. rewrite (se_builtin _ _ _ _ _ Hse).
  eapply el_load_packages; [by eapply (se_options _ _ _ _ _ Hse)|done|done|apply Hse|apply Hse|by eapply near_all|done].
Qed.
Lemma here_load_back o o' h0 roots h' all proj : make_options (su_machine S) f = Ok (Some o) → make_options (su_machine S') f' = Ok (Some o') → su_packages S o = inr (h0, roots) →
  load_packages (ro_index o') (su_world S') (su_builtin S') (el_heap el h0) roots h' all proj →
  ∃ h, h' = el_heap el h ∧ load_packages (ro_index o) (su_world S) (su_builtin S) h0 roots h all proj.
Proof.
  intros Ho Ho' Ha. destruct (se_paths _ _ _ _ _ Hse o o' h0 roots Ho Ho' Ha) as [[E1 E2 _ _] _]. rewrite (se_builtin _ _ _ _ _ Hse).
  eapply el_load_packages_back; [by eapply (se_options _ _ _ _ _ Hse)|done|done|apply Hse|apply Hse|by eapply near_all].
Qed.
Lemma here_works : (∀ o, make_options (su_machine S) f = Ok (Some o) → ∃ o', make_options (su_machine S') f' = Ok (Some o')) → go_works S f → maps_iterate S' f' → go_works here f.
Proof.
  intros Hs Hg Hm o h0 roots h all proj Ho Ha L. destruct (Hg o h0 roots h all proj Ho Ha L) as (P & E1 & E2 & E3 & G). exists P. do 3 (split; [done|]).
  destruct G as [G1 G2 G3 G4 G5 G6 G7 G8 G9 _]. split; try done. rewrite E1, E2, E3. cbn [here su_iteration]. destruct (Hs o Ho) as [o' Ho'].
  apply el_iteration_ok. eapply Hm; [exact Ho'| |].
  - rewrite (se_packages _ _ _ _ _ Hse o o' Ho Ho'). cbn in Ha. by rewrite Ha.
  - by apply here_load with o.
Qed.
(** the messages of the second run, in its place *)
Definition with_meta (meta : metadata) (m : message) : message := match m with MMeta _ => MMeta meta | _ => m end.
Lemma here_run o o' h0 roots h all proj w : make_options (su_machine S) f = Ok (Some o) → make_options (su_machine S') f' = Ok (Some o') → su_packages S o = inr (h0, roots) →
  load_packages (ro_index o) (su_world S) (su_builtin S) h0 roots h all proj → loaded_project h all proj → let R := with_meta (index_metadata (su_tool S') (ro_index o')) in
  program_run S' o' (el_heap el h) (LoadOk all proj) w =
  (λ r : list message * Index.outcome, (map R r.1, r.2)) (program_run here o h (LoadOk all proj) (λ l m, w (map R l) (R m))).
Proof.
  intros Ho Ho' Ha L Hlp R. destruct (se_paths _ _ _ _ _ Hse o o' h0 roots Ho Ho' Ha) as [Hpa _]. pose proof (el_paths_load _ _ _ _ _ _ _ _ _ _ _ _ L Hpa) as [E1 E2 E3 E4].
  destruct (se_options _ _ _ _ _ Hse o o' Ho Ho') as (O1 & _ & _ & _ & _ & O6). unfold program_run. rewrite O1, O6.
  rewrite (se_env _ _ _ _ _ Hse), (se_digest _ _ _ _ _ Hse), (se_constraint _ _ _ _ _ Hse), (se_unicode _ _ _ _ _ Hse), (se_crc _ _ _ _ _ Hse), (se_mset _ _ _ _ _ Hse), (se_objstr _ _ _ _ _ Hse).
  cbn [here su_machine su_world su_packages su_builtin su_fs su_env su_mset su_constraint su_package_level su_scope su_objstr
    su_unicode su_crc su_digest su_iteration su_sys su_noise su_tool it_maps it_search it_proj it_all it_proj2].
  assert (Hmod : tab_modules h proj ∧ tab_modules h all).
  { destruct Hlp as (K1 & K2 & _). split; intros k q p Hk Hq; [destruct (K2 k q Hk) as (p1 & m & Hq1 & _ & Hp1)|destruct (K1 k q Hk) as (p1 & m & Hq1 & _ & Hp1)];
      (assert (p1 = p) as -> by congruence); by exists m. }
  apply (el_index el (io_module_root (ro_index o')) (su_fs S) (su_fs S') (se_fs _ _ _ _ _ Hse) E1 (io_module_root (ro_index o)) h).
  - intros q p Hq f0 n Hf Hn. by eapply E3.
  - intros q p Hq f0 Hf. by eapply E4.
  - done.
  - done.
  - done.
  - done.
  - intros all1 proj1 [= <- <-]. exact Hmod.
  - intros g k Hg. apply el_impl_phase; [apply Hse|apply Hse|done|apply Hmod|apply Hmod].
  - intros g k g' k' e Hg. by apply impl_modules.
Qed.
End Two.
Lemma documents_with_meta meta msgs : documents (map (with_meta meta) msgs) = documents msgs.
Proof. unfold documents. induction msgs as [|[m|d|i] l IH]; [done| | |]; cbn; by rewrite ?IH. Qed.
Lemma externals_with_meta meta msgs : externals (map (with_meta meta) msgs) = externals msgs.
Proof. unfold externals. induction msgs as [|[m|d|i] l IH]; [done| | |]; cbn; by rewrite ?IH. Qed.

(** C85: two runs of the command on the same project in two directories, that both exit with code 0, write the same
    documents and external symbols (up to the order of lists of symbols): only the metadata, which names the project root,
    can differ. *)
Theorem C85_same_documents : ∀ el S S' f f' output output' t t' q q' u u' out out',
  same_elsewhere el S S' f f' → go_works S f → go_builds S f → maps_iterate S' f' →
  regular_output t output q → regular_output t' output' q' →
  scip_go S f output t (u, out, Exit 0 None) → scip_go S' f' output' t' (u', out', Exit 0 None) →
  (∀ c, u !! q = Some (FReg c) → (Z.of_nat (slen c) < 2 ^ 63)%Z) → (∀ c, u' !! q' = Some (FReg c) → (Z.of_nat (slen c) < 2 ^ 63)%Z) →
  ∃ c c' ix ix', u !! q = Some (FReg c) ∧ u' !! q' = Some (FReg c') ∧ read_index c = Some ix ∧ read_index c' = Some ix' ∧
    Forall2 same_document (si_docs ix) (si_docs ix') ∧ si_exts ix ≡ₚ si_exts ix'.
Proof.
  intros el S S' f f' output output' t t' q q' u u' out out' Hse Hg Hb Hm Ho Ho' Hr Hr' Hsz Hsz'.
  inversion Hr as [| |o h ld Eo Hld Er]. inversion Hr' as [| |o' h' ld' Eo' Hld' Er'].
  assert (Hk : go_works (here el S S') f) by (apply (here_works el S S' f f' Hse); [intros ? _; by exists o'|done|done]).
  destruct (exit_zero (su_sys S) (su_noise S) _ output t q _ Ho Er eq_refl) as (Hc & msgs & Hrun & Et). cbn [fst] in Et.
  destruct (exit_zero (su_sys S') (su_noise S') _ output' t' q' _ Ho' Er' eq_refl) as (Hc' & msgs' & Hrun' & Et'). cbn [fst] in Et'.
  destruct (good_file S o h ld output t q u out msgs Ho Hc Hrun Et Hsz Er) as (ix & F1 & F2 & F3 & F4 & F5).
  destruct (good_file S' o' h' ld' output' t' q' u' out' msgs' Ho' Hc' Hrun' Et' Hsz' Er') as (ix' & F1' & F2' & F3' & F4' & F5').
  exists (bytes_of_messages msgs), (bytes_of_messages msgs'), ix, ix'. do 4 (split; [done|]).
  destruct (loaded_run _ _ _ _ _ _ Hld Hrun) as (h0 & roots & all & proj & Ha & L & ->). destruct (loaded_run _ _ _ _ _ _ Hld' Hrun') as (h0' & roots' & all' & proj' & Ha' & L' & ->).
  rewrite (se_packages _ _ _ _ _ Hse o o' Eo Eo'), Ha in Ha'. injection Ha' as <- <-.
  apply (here_load_back el S S' f f' Hse o o' h0 roots h' all' proj' Eo Eo' Ha) in L' as (h1 & -> & L').
  destruct (Hg o h0 roots h1 all' proj' Eo Ha L') as (P1 & E1 & E2 & E3 & G1).
  assert (Hlp : loaded_project h1 all' proj').
  { rewrite <-E1, <-E2, <-E3. eapply ix_loaded, (guarantees_indexable S f o). exists h0, roots. rewrite E1, E2, E3. by subst. }
  rewrite (here_run el S S' f f' Hse o o' h0 roots h1 all' proj' _ Eo Eo' Ha L' Hlp) in Hrun'. set (w1 := λ l m, _) in Hrun'.
  destruct (program_run (here el S S') o h1 (LoadOk all' proj') w1) as [msgs1 e1] eqn:Hrun1. injection Hrun' as <- ->.
  destruct (Hg o h0 roots h all proj Eo Ha L) as (P & <- & <- & <- & G). assert (HP : loaded_by S f o P) by (by exists h0, roots).
  destruct (tables_once _ _ _ _ roots (gg_input _ _ _ _ _ G) (proj1 Hb o h0 roots Eo Ha) _ _ _ _ _ _ L L') as [T1 T2]. rewrite <-T1, <-T2 in Hrun1, L'.
  rewrite <-(second_run S (here el S S') f Hg o h0 roots _ _ _ _ Eo Ha L L') in Hrun1.
  destruct (same_parts _ _ (runs_agree S (here el S S') f (here_same el S S') Hk Hb o P _ _ _ _ HP Hrun Hrun1)) as [H1 H2].
  by rewrite F4, F4', F5, F5', documents_with_meta, externals_with_meta.
Qed.
Print Assumptions C85_same_documents.
