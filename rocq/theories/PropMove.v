(** C80: the index does not depend on the order in which the files are parsed. *)
From Coq Require Import Ascii String.
From stdpp Require Import prelude strings gmap sorting relations.
From Verif Require Import GoStr Scip GoTypes Ast Packages Symbols Document Lookup Pass1 Pass2 Paths Env Loader Index
  SpecSymbol SpecDecl SpecLookup SpecOcc SpecIndex P_Symbols P_Pass1 P_Link P_Lookup P_Pass2 P_Occ P_Loader PropLoader P_Index PropIndex
  Quote Fingerprint SpecTypes P_Finger PropFinger Impls P_Rel P_Ident SpecImpl P_Filter P_Mem P_Extract P_Impl PropImpl PropDet
  Output Proto Cli PropCli Options PropOptions Url PropUrl PropCross PropMember Program PropPrecise PropEnd PropSkip PropFind P_Once PropOnce
  SpecMove P_Move P_Move2 P_Move3.
Open Scope string_scope.
Open Scope list_scope.

(** [S'] is [S] with every position moved by [mv]: the same machine, flags and packages, but packages.Load put the
    files at other positions of the FileSet.  The map iteration orders, the file system and the progress messages
    are not compared. *)
Record same_but_positions (mv back : Z → Z) (S S' : surroundings) (f : flags) : Prop := SameButPositions {
  sp_move : opposite mv back;
  sp_machine : su_machine S' = su_machine S; sp_world : su_world S' = su_world S; sp_builtin : su_builtin S' = su_builtin S;
  sp_env : su_env S' = su_env S; sp_constraint : su_constraint S' = su_constraint S; sp_unicode : su_unicode S' = su_unicode S;
  sp_crc : su_crc S' = su_crc S; sp_digest : su_digest S' = su_digest S; sp_tool : su_tool S' = su_tool S;
  sp_packages : ∀ o, su_packages S' o = match su_packages S o with inl e => inl e | inr (h0, roots) => inr (mv_heap mv back h0, roots) end;
  sp_whole : ∀ o h0 roots, make_options (su_machine S) f = Ok (Some o) → su_packages S o = inr (h0, roots) → whole_idents mv h0;
  sp_fs : mv_fset mv (su_fs S) (su_fs S');
  sp_mset : ∀ t, su_mset S' t = map (mv_obj mv) (su_mset S t);
  sp_level : ∀ p o, su_package_level S' (mv_pkg mv back p) (mv_obj mv o) = su_package_level S p o;
  sp_scope : ∀ p, su_scope S' (mv_pkg mv back p) = map (mv_obj mv) (su_scope S p);
  sp_objstr : ∀ o, su_objstr S' (mv_obj mv o) = su_objstr S o }.
(** every iteration over a map yields its elements *)
Definition maps_iterate (S : surroundings) (f : flags) : Prop :=
  ∀ o h0 roots h all proj, make_options (su_machine S) f = Ok (Some o) → su_packages S o = inr (h0, roots) →
    load_packages (ro_index o) (su_world S) (su_builtin S) h0 roots h all proj → iteration_ok h all proj (su_iteration S).

(** *** Proofs *)
Lemma works_iterate S f : go_works S f → maps_iterate S f.
Proof. intros Hg o h0 roots h all proj Ho Ha L. destruct (Hg o h0 roots h all proj Ho Ha L) as (P & <- & <- & <- & G). apply G. Qed.

Lemma kmap_back (mv back : Z → Z) {A B} (f : A → B) (g : B → A) (m : gmap Z A) : opposite mv back → (∀ a, g (f a) = a) →
  map (λ e : Z * B, (back e.1, g e.2)) (map_to_list (kmap mv (f <$> m) : gmap Z B)) ≡ₚ map_to_list m.
Proof.
  intros Ho Hgf. pose proof (mv_inj mv back Ho) as Hinj. pose proof (mv_inj back mv (opposite_sym _ _ Ho)) as Hinj'.
  set (l := map_to_list (kmap mv (f <$> m) : gmap Z B)).
  assert (Hl : ∀ z b, (z, b) ∈ l ↔ ∃ a, m !! back z = Some a ∧ b = f a).
  { intros z b. unfold l. rewrite elem_of_map_to_list, <-(back_cancel mv back Ho z) at 1. rewrite lookup_kmap by apply _. rewrite lookup_fmap.
    destruct (m !! back z); cbn; naive_solver. }
  apply NoDup_Permutation.
  - assert (NoDup (map fst (map (λ e : Z * B, (back e.1, g e.2)) l))) as Hn.
    { rewrite map_map. cbn. rewrite <-(map_map fst back). apply (NoDup_fmap_2 back). apply NoDup_fst_map_to_list. }
    by eapply NoDup_fmap_1.
  - apply NoDup_map_to_list.
  - intros [z a]. rewrite elem_of_map_to_list. split.
    + intros Hin. apply elem_of_list_fmap in Hin as ([z' b] & [= -> ->] & Hin). apply Hl in Hin as (a & E & ->). by rewrite Hgf.
    + intros E. apply elem_of_list_fmap. exists (mv z, f a). cbn. rewrite (mv_cancel mv back Ho), Hgf. split; [done|]. apply Hl.
      rewrite (mv_cancel mv back Ho). by exists a.
Qed.
Lemma fmap_back {A B} (f : A → B) (g : B → A) (m : gmap string A) : (∀ a, g (f a) = a) →
  map (λ e : string * B, (e.1, g e.2)) (map_to_list (f <$> m)) ≡ₚ map_to_list m.
Proof.
  intros Hgf. rewrite map_to_list_fmap. rewrite <-(List.map_id (map_to_list m)) at 2. rewrite <-list_fmap_compose. apply reflexive_eq, map_ext. intros [k a]. cbn. by rewrite Hgf.
Qed.

Definition back_iteration (mv back : Z → Z) (it : iteration) : iteration :=
  Iteration (back_maps mv back (it_maps it)) (back_orders mv back (it_search it)) (it_proj it) (it_all it) (it_proj2 it).
Lemma back_iteration_ok mv back h all proj it : opposite mv back → iteration_ok (mv_heap mv back h) all proj it → iteration_ok h all proj (back_iteration mv back it).
Proof.
  intros Ho ([I1 I2] & [[O1 O2 O3 O4 O5 O6] I3] & I4 & I5 & I6). pose proof (opposite_sym _ _ Ho) as Ho'.
  assert (Hd : ∀ d : impldef, mv_def back (mv_def mv d) = d) by (intros; by apply mv_def_cancel).
  assert (Hc : ∀ c : cell * string, (mv_cell back (mv_cell mv c.1), c.2) = c) by (intros []; cbn; by rewrite (mv_cell_cancel back mv)).
  split; [split|split; [split|]]; [| | |intros q p ti ob Hq Hp|done].
  - intros n t. cbn [back_iteration back_maps it_maps mo_table]. rewrite I1. unfold mv_table. rewrite <-(map_fmap_id t) at 1. by apply (kmap_back mv back id id).
  - intros n l. cbn [back_iteration back_maps it_maps mo_locals]. rewrite I2. unfold mv_locals. apply (kmap_back mv back (mv_local mv) (mv_local back)); [done|].
    intros []. unfold mv_local. cbn. by rewrite (mv_obj_cancel mv back Ho).
  - split; intros; cbn [back_iteration back_orders it_search or_types or_ifaces or_imethods or_tmethods or_collect or_packages].
    + rewrite O1. by apply (fmap_back (mv_def mv) (mv_def back)).
    + rewrite O2. by apply (fmap_back (mv_def mv) (mv_def back)).
    + rewrite O3. by apply (fmap_back (λ e : cell * string, (mv_cell mv e.1, e.2)) (λ e : cell * string, (mv_cell back e.1, e.2))).
    + rewrite O4. by apply (fmap_back (λ e : cell * string, (mv_cell mv e.1, e.2)) (λ e : cell * string, (mv_cell back e.1, e.2))).
    + rewrite O5. by apply (fmap_back (mv_def mv) (mv_def back)).
    + apply O6.
  - cbn [back_iteration back_orders it_search or_defs].
    assert (Hq' : mv_heap mv back h !! q = Some (mv_pkg mv back p)) by (by rewrite mv_heap_lookup, Hq).
    assert (Hp' : p_info (mv_pkg mv back p) = Some (mv_info mv back ti)) by (cbn; by rewrite Hp).
    pose proof (I3 q _ _ (mv_obj mv ob) Hq' Hp') as HI. split.
    + intros Hin. apply elem_of_list_fmap in Hin as (ob' & -> & Hin). apply (I3 q _ _ ob' Hq' Hp') in Hin as [i Hi]. cbn in Hi.
      destruct (ti_defs ti i) as [o|] eqn:E; [|done]. injection Hi as <-. exists i. by rewrite (mv_obj_cancel mv back Ho).
    + intros [i Hi]. apply elem_of_list_fmap. exists (mv_obj mv ob). split; [by rewrite (mv_obj_cancel mv back Ho)|]. apply HI. exists i. cbn. by rewrite Hi.
Qed.

Lemma mv_load_panics_back mv back o w h t ps m : load_panics o w (mv_heap mv back h) t ps m → load_panics o w h t ps m.
Proof.
  intros Hl. remember (mv_heap mv back h) as h' eqn:E. revert h E. induction Hl as [h' t p ps h1 t1 q st g m Hr Hg Hs Hn|h' t p ps h1 t1 m Ha _ IH]; intros h ->.
  - destruct (mv_lsteps_back mv back o w (LState h t [p]) _ Hr) as ([h2 t2 st2] & E & Hr'). injection E as -> -> <-.
    rewrite mv_heap_lookup in Hg. destruct (h2 !! q) as [g0|] eqn:Eq; [|done]. injection Hg as <-. rewrite mv_skips in Hs. rewrite mv_normalize in Hn.
    eapply LP_here; [exact Hr'|exact Eq|exact Hs|]. destruct (normalize_package o w g0); [done|]. cbn in Hn. by injection Hn as ->.
  - destruct (mv_add_imports_back mv back o w _ _ _ _ _ Ha) as (h2 & -> & Ha'). eapply LP_later; [exact Ha'|]. by apply IH.
Qed.

Section Two.
Context (mv back : Z → Z) (S S' : surroundings) (f : flags) (Hsp : same_but_positions mv back S S' f).
(** the second run, seen from the positions of the first *)
Definition seen : surroundings := Surroundings (su_machine S) (su_world S) (su_packages S) (su_builtin S) (su_fs S) (su_env S)
  (su_mset S) (su_constraint S) (su_package_level S) (su_scope S) (su_objstr S) (su_unicode S) (su_crc S) (su_digest S)
  (back_iteration mv back (su_iteration S')) (su_sys S') (su_noise S') (su_tool S).
Lemma seen_same : same_surroundings S seen.
Proof. by split. Qed.
Lemma seen_run o h ld w : whole_idents mv h → program_run S' o (mv_heap mv back h) ld w = program_run seen o h ld w.
Proof.
  intros Hw. destruct Hsp. unfold program_run. cbn [seen su_machine su_world su_packages su_builtin su_fs su_env su_mset su_constraint su_package_level su_scope su_objstr
    su_unicode su_crc su_digest su_iteration su_sys su_noise su_tool back_iteration it_maps it_search it_proj it_all it_proj2].
  rewrite sp_env0, sp_constraint0, sp_unicode0, sp_crc0, sp_digest0, sp_tool0.
  apply (mv_index mv back); [done|done|done|done|]. intros g k. destruct ld as [e|all proj]; [done|]. by apply (mv_impl_phase mv back).
Qed.
Lemma seen_failed o e h h' w : program_run S' o h (LoadFailed e) w = program_run seen o h' (LoadFailed e) w.
Proof. destruct Hsp. unfold program_run, Index.index. cbn. rewrite sp_tool0. done. Qed.
Lemma index_cmd_ext s no e run run' output t : (∀ w, run w = run' w) → index_cmd s no e run output t = index_cmd s no e run' output t.
Proof. intros Hr. unfold index_cmd. by rewrite !Hr. Qed.
Lemma seen_command output t r : scip_go S' f output t r → scip_go seen f output t r.
Proof.
  pose proof Hsp as Hs. destruct Hs. intros [m Em|e Em|o h ld Eo Hld]; [apply (sg_crash seen); cbn; congruence|apply (sg_options seen); cbn; congruence|].
  rewrite sp_machine0 in Eo. rewrite sp_world0, sp_builtin0, sp_packages0 in Hld.
  destruct Hld as [e h Ha|h0 roots m h Ha Hp|h0 roots h all proj Ha L].
  - rewrite (index_cmd_ext _ _ _ _ (program_run seen o h (LoadFailed e))) by (intros; apply seen_failed).
    apply (sg_index seen f output t o h (LoadFailed e) Eo). apply loads_error. cbn. destruct (su_packages S o) as [e'|[h1 r1]]; [|done]. congruence.
  - destruct (su_packages S o) as [e'|[h1 r1]] eqn:Ep; [done|]. injection Ha as <- <-. rewrite mv_builtin in Hp. apply mv_load_panics_back in Hp.
    rewrite (index_cmd_ext _ _ _ _ (program_run seen o h (LoadFailed ("during package loading: " +:+ m)))) by (intros; apply seen_failed).
    apply (sg_index seen f output t o h _ Eo). by eapply loads_panic.
  - destruct (su_packages S o) as [e'|[h1 r1]] eqn:Ep; [done|]. injection Ha as <- <-. apply mv_load_packages_back in L as (h2 & -> & L).
    rewrite (index_cmd_ext _ _ _ _ (program_run seen o h2 (LoadOk all proj))).
    + apply (sg_index seen f output t o h2 _ Eo). by eapply loads_ok.
    + intros w. apply seen_run. eapply load_whole; [exact L|]. by eapply sp_whole0.
Qed.
Lemma seen_works : go_works S f → maps_iterate S' f → go_works seen f.
Proof.
  intros Hg Hm o h0 roots h all proj Ho Ha L. destruct (Hg o h0 roots h all proj Ho Ha L) as (P & E1 & E2 & E3 & G). exists P. do 3 (split; [done|]).
  destruct G as [G1 G2 G3 G4 G5 G6 G7 G8 G9 _]. split; try done. rewrite E1, E2, E3. cbn [seen su_iteration]. destruct Hsp.
  apply back_iteration_ok; [done|]. eapply Hm; [rewrite sp_machine0; exact Ho| |].
  - rewrite sp_packages0. cbn in Ha. by rewrite Ha.
  - rewrite sp_world0, sp_builtin0. by apply mv_load_packages.
Qed.
End Two.

(** C80: two runs of the command that differ in the positions at which packages.Load put the files (which depends on the
    order in which they were parsed), and in map iteration orders, and that both exit with code 0, write the same
    index, up to the order of the lists of symbols. *)
Theorem C80_same_index : ∀ mv back S S' f output t t' q q' u u' out out',
  same_but_positions mv back S S' f → go_works S f → go_builds S f → maps_iterate S' f →
  regular_output t output q → regular_output t' output q' →
  scip_go S f output t (u, out, Exit 0 None) → scip_go S' f output t' (u', out', Exit 0 None) →
  (∀ c, u !! q = Some (FReg c) → (Z.of_nat (slen c) < 2 ^ 63)%Z) → (∀ c, u' !! q' = Some (FReg c) → (Z.of_nat (slen c) < 2 ^ 63)%Z) →
  ∃ c c' ix ix', u !! q = Some (FReg c) ∧ u' !! q' = Some (FReg c') ∧ read_index c = Some ix ∧ read_index c' = Some ix' ∧ same_scip ix ix'.
Proof.
  intros mv back S S' f output t t' q q' u u' out out' Hsp Hg Hb Hm Ho Ho' Hr Hr' Hsz Hsz'.
  eapply (C79_same_index S (seen mv back S S') f output t t' q q' u u' out out'); [apply seen_same|done|by eapply seen_works|done|done|done|done| |done|done].
  by apply seen_command.
Qed.
Print Assumptions C80_same_index.

(** ... and if one of them exits with code 0 then so does the other, unless the system reports an error for its output. *)
Theorem C80_same_success : ∀ mv back S S' f output t t' q q' u out u' out' e,
  same_but_positions mv back S S' f → go_works S f → go_builds S f → maps_iterate S' f →
  regular_output t output q → regular_output t' output q' →
  sy_create (su_sys S') = None → (∀ n, sy_write (su_sys S') n = None) →
  scip_go S f output t (u, out, Exit 0 None) → scip_go S' f output t' (u', out', e) → e = Exit 0 None.
Proof.
  intros mv back S S' f output t t' q q' u out u' out' e Hsp Hg Hb Hm Ho Ho' Hcr Hwr Hr Hr'.
  eapply (C79_same_success S (seen mv back S S') f output t t' q q' u out u' out' e); [apply seen_same|done|by eapply seen_works|done|done|done|done|done|done|].
  by apply seen_command.
Qed.
Print Assumptions C80_same_success.
