(** C80 on the run of ExEnd.v. *)
From Coq Require Import Ascii String.
From stdpp Require Import prelude strings gmap relations sorting.
From Verif Require Import GoStr Scip GoTypes Ast Packages Symbols Document Lookup Pass1 Pass2 Paths Env Loader Index
  SpecSymbol SpecDecl SpecLookup SpecOcc SpecIndex P_Symbols P_Pass1 P_Lookup P_Pass2 P_Occ P_Index PropIndex P_Loader PropLoader
  Output Proto Cli PropCli Options PropPaths PropOptions Url PropUrl
  Quote Fingerprint SpecTypes P_Finger PropFinger Impls P_Rel P_Ident SpecImpl P_Filter P_Mem P_Extract P_Impl PropImpl PropDet PropCross PropPrecise PropFind
  PropModule ExDecl ExOcc ExIndex ExImpl ExDet ExFind Program PropEnd ExEnd P_Once PropOnce ExOnce SpecMove P_Move P_Move2 P_Move3 PropMove.
Open Scope string_scope.
Open Scope list_scope.
Local Open Scope Z_scope.

(** in the second run /src/p.go (200 positions) is parsed behind a file of 300 positions, and the sources of fmt elsewhere *)
Definition e_mv (z : Z) : Z := if (1 <=? z) && (z <=? 200) then z + 300 else if (201 <=? z) && (z <=? 500) then z - 200 else
  if (901 <=? z) && (z <=? 950) then z + 50 else if (951 <=? z) && (z <=? 1000) then z - 50 else z.
Definition e_back (z : Z) : Z := if (301 <=? z) && (z <=? 500) then z - 300 else if (1 <=? z) && (z <=? 300) then z + 200 else
  if (901 <=? z) && (z <=? 950) then z + 50 else if (951 <=? z) && (z <=? 1000) then z - 50 else z.
Lemma e_opposite : opposite e_mv e_back.
Proof.
  split; [|split; [|reflexivity]]; intros z; unfold e_mv, e_back;
    repeat match goal with |- context [if ?b then _ else _] => destruct b eqn:?; try lia end.
Qed.
Definition e_fs' : fset := FSet (λ z, fs_position x_fs (e_back z)) (λ z, fs_file x_fs (e_back z)).
Definition e_o' : orders :=
  Orders (or_packages y_o') (λ p, map (mv_obj e_mv) (or_defs y_o' p)) (or_types y_o') (or_ifaces y_o') (or_imethods y_o') (or_tmethods y_o') (or_collect y_o').
Definition e_moved_it : iteration := Iteration (it_maps y_it') e_o' ["ex.org/p"] ["ex.org/p"; "builtin"; "fmt"] ["ex.org/p"].
Definition e_moved : surroundings := Surroundings e_machine e_world (λ _, inr (mv_heap e_mv e_back e_h0, [1%nat])) 9 e_fs' y_env
  (λ t, map (mv_obj e_mv) (y_mset t)) w_cok w_level (λ p, map (mv_obj e_mv) (y_scope p))
  (λ o, o_name o) x_u w_crc p_digest e_moved_it no_errors (λ _, "...") "v0.1.26".
Lemma e_whole : whole_idents e_mv e_h0.
Proof.
  intros q p f i Hq Hf Hi. destruct (e_heap0 _ _ Hq) as [[-> ->]|[-> ->]]; [|by apply elem_of_nil in Hf].
  apply elem_of_list_singleton in Hf as ->. enum Hi; subst i; reflexivity.
Qed.
Lemma e_same_but : same_but_positions e_mv e_back e_surroundings e_moved no_flags.
Proof.
  pose proof e_opposite as Ho. split; try reflexivity; try exact Ho.
  - intros o h0 roots _ [= <- <-]. apply e_whole.
  - split; intros z; cbn [e_moved su_fs e_fs' fs_position fs_file e_surroundings]; by rewrite (mv_cancel e_mv e_back Ho).
  - intros p o. cbn. unfold w_level, is_type_name. by destruct o.
  - intros o. cbn. by destruct o.
Qed.
Lemma e_maps : maps_iterate e_moved no_flags.
Proof.
  intros o h0 roots h all proj Eo [= <- <-] Hl. pose proof (e_options _ Eo) as Ei. rewrite Ei in Hl.
  apply mv_load_packages_back in Hl as (h1 & -> & Hl). destruct (e_loads _ _ _ Hl) as (-> & -> & ->).
  destruct e_iteration' as (I1 & [I2 I2'] & I3). split; [exact I1|]. split; [|exact I3]. split.
  - destruct I2 as [J1 J2 J3 J4 J5 J6]. split; [exact J1|exact J2|exact J3|exact J4|exact J5|exact J6].
  - intros q p ti ob Hq Hp. rewrite mv_heap_lookup in Hq. destruct (e_h !! q) as [p0|] eqn:Eq; [|done]. injection Hq as <-.
    cbn in Hp. destruct (p_info p0) as [ti0|] eqn:Ep; [|done]. injection Hp as <-.
    assert (Eor : or_defs y_o' (mv_pkg e_mv e_back p0) = or_defs y_o' p0) by (cbn; by rewrite Ep).
    cbn [e_moved su_iteration e_moved_it it_search e_o' or_defs]. rewrite Eor. split.
    + intros (ob0 & -> & Hin)%elem_of_list_fmap. apply (I2' q p0 ti0 ob0 Eq Ep) in Hin as [i Hi]. exists i. cbn. by rewrite Hi.
    + intros [i Hi]. cbn in Hi. destruct (ti_defs ti0 i) as [ob0|] eqn:Ei0; [|done]. injection Hi as <-.
      apply elem_of_list_fmap. exists ob0. split; [done|]. apply (I2' q p0 ti0 ob0 Eq Ep). by exists i.
Qed.
Definition e_moved_result : ftree * string * cli_end :=
  index_cmd no_errors (λ _, "...") None (program_run e_moved e_ro (mv_heap e_mv e_back e_h) (LoadOk e_all e_proj)) "index.scip" x_tree.
Lemma e_moved_go : scip_go e_moved no_flags "index.scip" x_tree e_moved_result.
Proof.
  apply (sg_index e_moved no_flags "index.scip" x_tree e_ro (mv_heap e_mv e_back e_h) (LoadOk e_all e_proj)); [vm_compute; reflexivity|].
  eapply loads_ok; [reflexivity|]. apply mv_load_packages, e_load.
Qed.
Lemma e_moved_size c : e_moved_result.1.1 !! "index.scip" = Some (FReg c) → (Z.of_nat (slen c) < 2 ^ 63)%Z.
Proof.
  assert (H : match e_moved_result.1.1 !! "index.scip" with Some (FReg c) => Z.ltb (Z.of_nat (slen c)) (2 ^ 63) | _ => false end = true) by (vm_compute; reflexivity).
  intros E. rewrite E in H. by apply Z.ltb_lt.
Qed.
Lemma e_moved_exit : e_moved_result.2 = Exit 0 None.
Proof. vm_compute. reflexivity. Qed.
(** every identifier of the file has moved *)
Example C80_positions : map id_pos (node_idents y_file) = [9; 17; 31; 46; 66; 69] ∧
  map id_pos (List.concat (map node_idents (p_syntax (mv_pkg e_mv e_back e_p0)))) = [309; 317; 331; 346; 366; 369].
Proof. split; vm_compute; reflexivity. Qed.
Example C80_example : ∃ c c' ix ix', e_result.1.1 !! "index.scip" = Some (FReg c) ∧ e_moved_result.1.1 !! "index.scip" = Some (FReg c') ∧
  read_index c = Some ix ∧ read_index c' = Some ix' ∧ same_scip ix ix'.
Proof.
  refine (C80_same_index e_mv e_back e_surroundings e_moved no_flags "index.scip" x_tree x_tree "index.scip" "index.scip" e_result.1.1 e_moved_result.1.1 e_result.1.2 e_moved_result.1.2
    e_same_but e_works e_builds e_maps _ _ _ _ e_size e_moved_size).
  - apply plain_regular. split; [done|]. right. by eexists.
  - apply plain_regular. split; [done|]. right. by eexists.
  - pose proof e_scip_go as H. rewrite <- e_exit. by destruct e_result as [[]].
  - pose proof e_moved_go as H. rewrite <- e_moved_exit. by destruct e_moved_result as [[]].
Qed.
Example C80_success_example : ∀ u' out' e, scip_go e_moved no_flags "index.scip" x_tree (u', out', e) → e = Exit 0 None.
Proof.
  intros u' out' e. refine (C80_same_success e_mv e_back e_surroundings e_moved no_flags "index.scip" x_tree x_tree "index.scip" "index.scip" e_result.1.1 e_result.1.2 u' out' e
    e_same_but e_works e_builds e_maps _ _ eq_refl (λ _, eq_refl) _).
  - apply plain_regular. split; [done|]. right. by eexists.
  - apply plain_regular. split; [done|]. right. by eexists.
  - pose proof e_scip_go as H. rewrite <- e_exit. by destruct e_result as [[]].
Qed.
