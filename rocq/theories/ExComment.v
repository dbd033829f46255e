(** C83 on the run of ExEnd.v. *)
From Coq Require Import Ascii String.
From stdpp Require Import prelude strings gmap relations sorting.
From Verif Require Import GoStr Scip GoTypes Ast Packages Symbols Document Lookup Pass1 Pass2 Paths Env Loader Index
  SpecSymbol SpecDecl SpecLookup SpecOcc SpecIndex P_Symbols P_Pass1 P_Lookup P_Pass2 P_Occ P_Index PropIndex P_Loader PropLoader
  Output Proto Cli PropCli Options PropPaths PropOptions Url PropUrl
  Quote Fingerprint SpecTypes P_Finger PropFinger Impls P_Rel P_Ident SpecImpl P_Filter P_Mem P_Extract P_Impl PropImpl PropDet PropCross PropPrecise PropFind
  PropModule ExDecl ExOcc ExIndex ExImpl ExDet ExFind Program PropEnd ExEnd P_Once PropOnce ExOnce SpecMove P_Move P_Move2 P_Move3 PropMove ExMove
  SpecComment P_Comment P_Comment2 PropComment.
Open Scope string_scope.
Open Scope list_scope.
Local Open Scope Z_scope.

(** a package comment of two lines; "Deprecated:" above every type, comments above the functions *)
Definition rc_decl (n : node) : node :=
  match n with
  | NGenDecl p TYPE _ l => NGenDecl p TYPE "Deprecated: gone." l
  | NFuncDecl _ p e r nm t b => NFuncDecl "N does nothing." p e r nm t b
  | _ => n
  end.
Definition rc_file (n : node) : node :=
  match n with NFile p _ _ nm l => NFile p true "About p." nm (map rc_decl l) | _ => n end.
Lemma rc_comments : comments_only rc_file.
Proof.
  intros n. destruct n as [i|d c ns t|l|r p f|r p m|p a b c|p k v|p l e|p v|p x|p x|p x|x y|x y|x l|x s|t b|p l|r nm p s|d nm tp t|d c ns t vs|p k d l|d p e r nm t b|p h d nm l|p l]; try done.
  cbn. f_equal. rewrite map_map. apply map_ext. intros a. destruct a as [i|d0 c ns t|l0|r p0 f|r p0 m|p0 a b c|p0 k v|p0 l0 e|p0 v|p0 x|p0 x|p0 x|x y|x y|x l0|x s|t b|p0 l0|r nm0 p0 s|d0 nm0 tp t|d0 c ns t vs|p0 k d0 l0|d0 p0 e r nm0 t b|p0 h0 d0 nm0 l0|p0 l0]; try done. by destruct k.
Qed.
Definition rc_fs : fset :=
  FSet (λ p, Position (match x_name p with Some n => n | None => "" end) (if p <? 9 then 1 else 3) (p mod 201)) x_name.
Definition rc_s : surroundings := Surroundings e_machine e_world (λ _, inr (rc_heap rc_file e_h0, [1%nat])) 9 rc_fs y_env
  y_mset w_cok w_level y_scope (λ o, o_name o) x_u w_crc p_digest e_it no_errors (λ _, "...") "v0.1.26".
Lemma rc_no_groups d c i j ns t vs : NValueSpec d c (i :: j :: ns) t vs ∉ subnodes y_file.
Proof. intros H. enum H. Qed.
Lemma rc_same : same_but_comments rc_file e_surroundings rc_s no_flags.
Proof.
  split; try reflexivity; [exact rc_comments|intros z; reflexivity|]. intros o h0 roots q p file _ [= <- <-] Hq Hf.
  destruct (e_heap0 _ _ Hq) as [[-> ->]|[-> ->]]; [|by apply elem_of_nil in Hf].
  apply elem_of_list_singleton in Hf as ->. intros d c i j ns t vs Hv. by apply rc_no_groups in Hv.
Qed.
Lemma rc_maps : maps_iterate rc_s no_flags.
Proof.
  intros o h0 roots h all proj Eo [= <- <-] Hl. pose proof (e_options _ Eo) as Ei. rewrite Ei in Hl.
  apply rc_load_packages_back in Hl as (h1 & -> & Hl). destruct (e_loads _ _ _ Hl) as (-> & -> & ->).
  destruct e_iteration as (I1 & [I2 I2'] & I3). split; [exact I1|]. split; [|exact I3]. split; [exact I2|].
  intros q p ti ob Hq Hp. rewrite rc_heap_lookup in Hq. destruct (e_h !! q) as [p0|] eqn:Eq; [|done]. injection Hq as <-.
  assert (Eor : or_defs y_o (rc_pkg rc_file p0) = or_defs y_o p0) by reflexivity.
  cbn [rc_s su_iteration e_it it_search]. rewrite Eor. by apply (I2' q p0 ti ob Eq).
Qed.
Definition rc_result : ftree * string * cli_end :=
  index_cmd no_errors (λ _, "...") None (program_run rc_s e_ro (rc_heap rc_file e_h) (LoadOk e_all e_proj)) "index.scip" x_tree.
Lemma rc_go : scip_go rc_s no_flags "index.scip" x_tree rc_result.
Proof.
  apply (sg_index rc_s no_flags "index.scip" x_tree e_ro (rc_heap rc_file e_h) (LoadOk e_all e_proj)); [vm_compute; reflexivity|].
  eapply loads_ok; [reflexivity|]. apply rc_load_packages, e_load.
Qed.
Lemma rc_size c : rc_result.1.1 !! "index.scip" = Some (FReg c) → (Z.of_nat (slen c) < 2 ^ 63)%Z.
Proof.
  assert (H : match rc_result.1.1 !! "index.scip" with Some (FReg c) => Z.ltb (Z.of_nat (slen c)) (2 ^ 63) | _ => false end = true) by (vm_compute; reflexivity).
  intros E. rewrite E in H. by apply Z.ltb_lt.
Qed.
Lemma rc_exit : rc_result.2 = Exit 0 None.
Proof. vm_compute. reflexivity. Qed.
Example C83_example : ∃ c c' ix ix', e_result.1.1 !! "index.scip" = Some (FReg c) ∧ rc_result.1.1 !! "index.scip" = Some (FReg c') ∧
  read_index c = Some ix ∧ read_index c' = Some ix' ∧ recommented_scip x_fs rc_fs ix ix'.
Proof.
  refine (C83_same_index rc_file e_surroundings rc_s no_flags "index.scip" x_tree x_tree "index.scip" "index.scip" e_result.1.1 rc_result.1.1 e_result.1.2 rc_result.1.2
    rc_same e_works e_builds rc_maps _ _ _ _ e_size rc_size).
  - apply plain_regular. split; [done|]. right. by eexists.
  - apply plain_regular. split; [done|]. right. by eexists.
  - pose proof e_scip_go as H. rewrite <- e_exit. by destruct e_result as [[]].
  - pose proof rc_go as H. rewrite <- rc_exit. by destruct rc_result as [[]].
Qed.
(** The indexes do differ: in documentation, diagnostics and layout *)
Definition rc_view (r : ftree) :=
  match r !! "index.scip" with
  | Some (FReg c) => option_map (λ ix, map (λ d, (map (λ o, (oc_symbol o, oc_range o, oc_diags o)) (d_occs d), map (λ i, (i_display_name i, i_documentation i)) (d_symbols d))) (si_docs ix)) (read_index c)
  | _ => None end.
Example C83_differs :
  let p s := "scip-go gomod ex.org v1.0.0 `ex.org/p`/" +:+ s in
  rc_view e_result.1.1 = Some [([(p "", [0; 8; 9], []); (p "I#", [0; 16; 17], []); (p "I#N.", [0; 30; 31], []); (p "T#", [0; 45; 46], []);
     (p "T#", [0; 65; 66], []); (p "T#N().", [0; 68; 69], [])], [("T", []); ("p", []); ("I", []); ("N", []); ("N", [])])] ∧
  rc_view rc_result.1.1 = Some [([(p "", [2; 8; 9], []); (p "I#", [2; 16; 17], [DeprecatedDiag]); (p "I#N.", [2; 30; 31], []); (p "T#", [2; 45; 46], [DeprecatedDiag]);
     (p "T#", [2; 65; 66], [DeprecatedDiag]); (p "T#N().", [2; 68; 69], [])],
     [("T", ["Deprecated: gone."]); ("p", ["About p."]); ("I", ["Deprecated: gone."]); ("N", ["N does nothing."]); ("N", [])])].
Proof. split; vm_compute; reflexivity. Qed.

(** the same with the files at other positions *)
Definition rc_fs' : fset := FSet (λ z, fs_position rc_fs (e_back z)) (λ z, fs_file rc_fs (e_back z)).
Definition rc_moved : surroundings := Surroundings e_machine e_world (λ _, inr (mv_heap e_mv e_back (rc_heap rc_file e_h0), [1%nat])) 9 rc_fs' y_env
  (λ t, map (mv_obj e_mv) (y_mset t)) w_cok w_level (λ p, map (mv_obj e_mv) (y_scope p))
  (λ o, o_name o) x_u w_crc p_digest e_moved_it no_errors (λ _, "...") "v0.1.26".
Lemma rc_whole : whole_idents e_mv (rc_heap rc_file e_h0).
Proof.
  intros q p f i Hq Hf Hi. rewrite rc_heap_lookup in Hq. destruct (e_h0 !! q) as [p0|] eqn:Eq; [|done]. injection Hq as <-.
  destruct (e_heap0 _ _ Eq) as [[-> ->]|[-> ->]]; [|by apply elem_of_nil in Hf].
  apply elem_of_list_singleton in Hf as ->. enum Hi; subst i; reflexivity.
Qed.
Lemma rc_positions : same_but_positions e_mv e_back rc_s rc_moved no_flags.
Proof.
  pose proof e_opposite as Ho. split; try reflexivity; try exact Ho.
  - intros o h0 roots _ [= <- <-]. apply rc_whole.
  - split; intros z; cbn [rc_moved su_fs rc_fs' fs_position fs_file rc_s]; by rewrite (mv_cancel e_mv e_back Ho).
  - intros p o. cbn. unfold w_level, is_type_name. by destruct o.
  - intros o. cbn. by destruct o.
Qed.
Lemma rc_moved_maps : maps_iterate rc_moved no_flags.
Proof.
  intros o h0 roots h all proj Eo [= <- <-] Hl. pose proof (e_options _ Eo) as Ei. rewrite Ei in Hl.
  apply mv_load_packages_back in Hl as (h1 & -> & Hl). apply rc_load_packages_back in Hl as (h2 & -> & Hl). destruct (e_loads _ _ _ Hl) as (-> & -> & ->).
  destruct e_iteration' as (I1 & [I2 I2'] & I3). split; [exact I1|]. split; [|exact I3]. split.
  - destruct I2 as [J1 J2 J3 J4 J5 J6]. split; [exact J1|exact J2|exact J3|exact J4|exact J5|exact J6].
  - intros q p ti ob Hq Hp. rewrite mv_heap_lookup, rc_heap_lookup in Hq. destruct (e_h !! q) as [p0|] eqn:Eq; [|done]. injection Hq as <-.
    cbn in Hp. destruct (p_info p0) as [ti0|] eqn:Ep; [|done]. injection Hp as <-.
    assert (Eor : or_defs y_o' (mv_pkg e_mv e_back (rc_pkg rc_file p0)) = or_defs y_o' p0) by (cbn; by rewrite Ep).
    cbn [rc_moved su_iteration e_moved_it it_search e_o' or_defs]. rewrite Eor. split.
    + intros (ob0 & -> & Hin)%elem_of_list_fmap. apply (I2' q p0 ti0 ob0 Eq Ep) in Hin as [i Hi]. exists i. cbn. by rewrite Hi.
    + intros [i Hi]. cbn in Hi. destruct (ti_defs ti0 i) as [ob0|] eqn:Ei0; [|done]. injection Hi as <-.
      apply elem_of_list_fmap. exists ob0. split; [done|]. apply (I2' q p0 ti0 ob0 Eq Ep). by exists i.
Qed.
Definition rc_moved_result : ftree * string * cli_end :=
  index_cmd no_errors (λ _, "...") None (program_run rc_moved e_ro (mv_heap e_mv e_back (rc_heap rc_file e_h)) (LoadOk e_all e_proj)) "index.scip" x_tree.
Lemma rc_moved_go : scip_go rc_moved no_flags "index.scip" x_tree rc_moved_result.
Proof.
  apply (sg_index rc_moved no_flags "index.scip" x_tree e_ro (mv_heap e_mv e_back (rc_heap rc_file e_h)) (LoadOk e_all e_proj)); [vm_compute; reflexivity|].
  eapply loads_ok; [reflexivity|]. apply mv_load_packages, rc_load_packages, e_load.
Qed.
Lemma rc_moved_size c : rc_moved_result.1.1 !! "index.scip" = Some (FReg c) → (Z.of_nat (slen c) < 2 ^ 63)%Z.
Proof.
  assert (H : match rc_moved_result.1.1 !! "index.scip" with Some (FReg c) => Z.ltb (Z.of_nat (slen c)) (2 ^ 63) | _ => false end = true) by (vm_compute; reflexivity).
  intros E. rewrite E in H. by apply Z.ltb_lt.
Qed.
Lemma rc_moved_exit : rc_moved_result.2 = Exit 0 None.
Proof. vm_compute. reflexivity. Qed.
Example C83_moved_example : ∃ c c' ix ix', e_result.1.1 !! "index.scip" = Some (FReg c) ∧ rc_moved_result.1.1 !! "index.scip" = Some (FReg c') ∧
  read_index c = Some ix ∧ read_index c' = Some ix' ∧ recommented_scip x_fs rc_fs ix ix'.
Proof.
  refine (C83_moved rc_file e_mv e_back e_surroundings rc_s rc_moved no_flags "index.scip" x_tree x_tree "index.scip" "index.scip" e_result.1.1 rc_moved_result.1.1 e_result.1.2 rc_moved_result.1.2
    rc_same rc_positions e_works e_builds rc_moved_maps _ _ _ _ e_size rc_moved_size).
  - apply plain_regular. split; [done|]. right. by eexists.
  - apply plain_regular. split; [done|]. right. by eexists.
  - pose proof e_scip_go as H. rewrite <- e_exit. by destruct e_result as [[]].
  - pose proof rc_moved_go as H. rewrite <- rc_moved_exit. by destruct rc_moved_result as [[]].
Qed.
(** comments changed in place: C83_in_place on two recommented indexes *)
Example C83_in_place_example : ∀ ix ix', recommented_scip x_fs x_fs ix ix' → map d_path (si_docs ix') = map d_path (si_docs ix).
Proof. intros ix ix' H. by apply (C83_in_place x_fs). Qed.
